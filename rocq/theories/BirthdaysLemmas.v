From Verif Require Import BaseLemmas TallyLemmas BirthdaysModel BirthdaysSpec.
Open Scope N_scope.

Lemma SS_app_inv : forall A (R : A -> A -> Prop) a b, StronglySorted R (a ++ b) ->
  StronglySorted R b /\ forall x y, In x a -> In y b -> R x y.
Proof.
  induction a as [|h a IH]; intros b H; [split; [exact H|intros x y []]|].
  cbn [app] in H. apply StronglySorted_inv in H. destruct H as [H F]. destruct (IH b H) as [S1 S2].
  split; [exact S1|]. intros x y [<-|I] J; [|eauto]. rewrite Forall_forall in F. apply F, in_or_app. auto.
Qed.

Lemma expand_app : forall a b, expand (a ++ b) = expand a ++ expand b.
Proof. intros. unfold expand. apply flat_map_app. Qed.
Lemma expand_cons : forall v n r, expand ((v, n) :: r) = repeat v n ++ expand r.
Proof. reflexivity. Qed.
Lemma in_expand : forall gs v, In v (expand gs) -> In v (map fst gs).
Proof.
  induction gs as [|[w n] gs IH]; intros v I; [destruct I|]. rewrite expand_cons in I. apply in_app_or in I.
  destruct I as [I|I]; [left; symmetry; eapply repeat_spec, I|right; auto].
Qed.

Lemma nth_error_expand : forall pre v n rest j, (j < n)%nat ->
  nth_error (expand pre ++ repeat v n ++ expand rest) (length (expand pre) + j) = Some v.
Proof.
  intros pre v n rest j H. rewrite nth_error_app2 by lia.
  replace (length (expand pre) + j - length (expand pre))%nat with j by lia.
  rewrite nth_error_app1 by (rewrite repeat_length; lia).
  apply nth_error_repeat. exact H.
Qed.

(** The while loop on a group: it stops after it. *)
Lemma same_run_stop : forall iv p n v w,
  (forall j, (j < n)%nat -> nth_error iv (p + j) = Some v) ->
  nth_error iv (p + n) = Some w -> w <> v ->
  forall d j fuel, (1 <= j)%nat -> (j + d = n)%nat -> (d < fuel)%nat ->
  same_run fuel iv (Z.of_nat p) (Z.of_nat (p + j)) = Ok (Z.of_nat (p + n)).
Proof.
  intros iv p n v w G W NE. induction d as [|d IH]; intros j fuel J E F; (destruct fuel as [|fuel]; [lia|]);
    cbn [same_run].
  - replace j with n by lia. unfold aget. rewrite !(proj2 (Z.ltb_ge _ 0)) by lia. rewrite !Nat2Z.id.
    replace p with (p + 0)%nat at 1 by lia. rewrite G by lia. rewrite W. cbn [bind].
    rewrite (proj2 (N.eqb_neq v w)) by congruence. reflexivity.
  - unfold aget. rewrite !(proj2 (Z.ltb_ge _ 0)) by lia. rewrite !Nat2Z.id.
    replace p with (p + 0)%nat at 1 by lia. rewrite !G by lia. cbn [bind]. rewrite N.eqb_refl.
    replace (Z.of_nat (p + j) + 1)%Z with (Z.of_nat (p + S j)) by lia. apply IH; lia.
Qed.
Lemma same_run_over : forall iv p n v,
  (forall j, (j < n)%nat -> nth_error iv (p + j) = Some v) ->
  nth_error iv (p + n) = None ->
  forall d j fuel, (1 <= j)%nat -> (j + d = n)%nat -> (d < fuel)%nat ->
  same_run fuel iv (Z.of_nat p) (Z.of_nat (p + j)) = UB "array index".
Proof.
  intros iv p n v G W. induction d as [|d IH]; intros j fuel J E F; (destruct fuel as [|fuel]; [lia|]);
    cbn [same_run].
  - replace j with n by lia. unfold aget. rewrite !(proj2 (Z.ltb_ge _ 0)) by lia. rewrite !Nat2Z.id.
    replace p with (p + 0)%nat at 1 by lia. rewrite G by lia. rewrite W. reflexivity.
  - unfold aget. rewrite !(proj2 (Z.ltb_ge _ 0)) by lia. rewrite !Nat2Z.id.
    replace p with (p + 0)%nat at 1 by lia. rewrite !G by lia. cbn [bind]. rewrite N.eqb_refl.
    replace (Z.of_nat (p + j) + 1)%Z with (Z.of_nat (p + S j)) by lia. apply IH; lia.
Qed.

Definition to_outcome (o : option N) (k : N) : outcome N :=
  match o with Some r => Ok (k + r) | None => UB "array index" end.

Lemma repeat_loop_ok : forall gs pre iv skip fuel k,
  iv = expand pre ++ expand gs -> is_grouping (pre ++ gs) ->
  (length (expand gs) < fuel)%nat -> (skip = true -> gs <> []) ->
  repeat_loop fuel iv (Z.of_nat (length iv)) (Z.of_nat (length (expand pre) + (if skip then 1 else 0))) k
  = to_outcome (loop_counts skip gs) k.
Proof.
  induction gs as [|[v n] gs IH]; intros pre iv skip fuel k E G F NE.
  - destruct skip; [destruct (NE eq_refl eq_refl)|]. destruct fuel as [|fuel]; [cbn in F; lia|].
    cbn [repeat_loop]. rewrite E, app_length. cbn [expand flat_map length].
    replace (_ <? _)%Z with false by lia. cbn. f_equal. lia.
  - rewrite expand_cons in E, F. rewrite app_length, repeat_length in F.
    assert (N1 : (1 <= n)%nat).
    { destruct G as [_ G]. rewrite Forall_forall in G. apply (G (v, n)). apply in_or_app. right. left. reflexivity. }
    assert (L : length iv = (length (expand pre) + n + length (expand gs))%nat).
    { rewrite E, !app_length, repeat_length. lia. }
    assert (G' : is_grouping ((pre ++ [(v, n)]) ++ gs)) by (rewrite <- app_assoc; exact G).
    assert (E' : iv = expand (pre ++ [(v, n)]) ++ expand gs).
    { rewrite expand_app. unfold expand at 2. cbn [flat_map fst snd]. rewrite app_nil_r, <- app_assoc. exact E. }
    assert (LP : length (expand (pre ++ [(v, n)])) = (length (expand pre) + n)%nat).
    { rewrite expand_app, app_length. unfold expand at 2. cbn [flat_map fst snd]. rewrite app_nil_r, repeat_length. reflexivity. }
    set (e := if skip then 1%nat else 0%nat) in *.
    assert (Ee : (e <= 1)%nat) by (unfold e; destruct skip; lia).
    assert (Ec : (if skip then n - 1 else n)%nat = (n - e)%nat) by (unfold e; destruct skip; lia).
    (* elements of the group *)
    assert (A : forall j, (j < n)%nat -> nth_error iv (length (expand pre) + j) = Some v).
    { intros j Hj. rewrite E. apply nth_error_expand. exact Hj. }
    cbn [loop_counts]. rewrite Ec.
    destruct gs as [|[w n2] gs].
    + (* last group *)
      cbn [expand flat_map length] in L, F.
      destruct (Nat.leb_spec 2 (n - e)) as [T|T].
      * destruct fuel as [|fuel]; [lia|]. cbn [repeat_loop]. replace (_ <? _)%Z with true by lia.
        replace (Z.of_nat (length (expand pre) + e) + 1)%Z with (Z.of_nat (length (expand pre) + e + 1)) by lia.
        rewrite (same_run_over iv (length (expand pre) + e) (n - e) v) with (d := (n - e - 1)%nat); [reflexivity|..].
        -- intros j Hj. rewrite <- Nat.add_assoc. apply A. lia.
        -- apply nth_error_None. lia.
        -- lia.
        -- lia.
        -- lia.
      * destruct fuel as [|fuel]; [lia|]. cbn [repeat_loop]. replace (_ <? _)%Z with false by lia. cbn. f_equal. lia.
    + assert (NEQ : w <> v).
      { destruct G as [G _]. rewrite map_app in G. destruct (SS_app_inv _ _ _ _ G) as [G2 _]. cbn [map fst] in G2.
        apply StronglySorted_inv in G2. destruct G2 as [_ G2]. rewrite Forall_forall in G2.
        specialize (G2 w ltac:(left; reflexivity)). lia. }
      assert (N2 : (1 <= n2)%nat).
      { destruct G as [_ G]. rewrite Forall_forall in G. apply (G (w, n2)). apply in_or_app. right. right. left. reflexivity. }
      assert (B : nth_error iv (length (expand pre) + n) = Some w).
      { rewrite E'. rewrite nth_error_app2 by lia. rewrite LP. replace (_ - _)%nat with 0%nat by lia.
        rewrite expand_cons. destruct n2; [lia|]. reflexivity. }
      assert (L2 : (1 <= length (expand ((w, n2) :: gs)))%nat).
      { rewrite expand_cons, app_length, repeat_length. lia. }
      destruct (Nat.leb_spec 2 (n - e)) as [T|T].
      * destruct fuel as [|fuel]; [lia|]. cbn [repeat_loop]. replace (_ <? _)%Z with true by lia.
        replace (Z.of_nat (length (expand pre) + e) + 1)%Z with (Z.of_nat (length (expand pre) + e + 1)) by lia.
        rewrite (same_run_stop iv (length (expand pre) + e) (n - e) v w) with (d := (n - e - 1)%nat);
          [| |replace (length (expand pre) + e + (n - e))%nat with (length (expand pre) + n)%nat by lia; exact B|exact NEQ|lia|lia|lia].
        2: { intros j Hj. rewrite <- Nat.add_assoc. apply A. lia. }
        cbn [bind]. replace (_ =? _)%Z with false by lia.
        replace (Z.of_nat (length (expand pre) + e + (n - e)) + 1)%Z with (Z.of_nat (length (expand (pre ++ [(v, n)])) + 1)) by lia.
        rewrite (IH (pre ++ [(v, n)]) iv true fuel (k + 1) E' G' ltac:(lia) ltac:(discriminate)).
        destruct (loop_counts true ((w, n2) :: gs)); cbn; [f_equal; lia|reflexivity].
      * destruct (Nat.eq_dec (n - e) 1) as [T1|T1].
        -- destruct fuel as [|fuel]; [lia|]. cbn [repeat_loop]. replace (_ <? _)%Z with true by lia.
           replace (Z.of_nat (length (expand pre) + e) + 1)%Z with (Z.of_nat (length (expand pre) + e + 1)) by lia.
           rewrite (same_run_stop iv (length (expand pre) + e) (n - e) v w) with (d := (n - e - 1)%nat);
             [| |replace (length (expand pre) + e + (n - e))%nat with (length (expand pre) + n)%nat by lia; exact B|exact NEQ|lia|lia|lia].
           2: { intros j Hj. rewrite <- Nat.add_assoc. apply A. lia. }
           cbn [bind]. replace (_ =? _)%Z with true by lia.
           replace (Z.of_nat (length (expand pre) + e) + 1)%Z with (Z.of_nat (length (expand (pre ++ [(v, n)])) + 0)) by lia.
           apply (IH (pre ++ [(v, n)]) iv false fuel k E' G'); [lia|discriminate].
        -- replace (Z.of_nat (length (expand pre) + e)) with (Z.of_nat (length (expand (pre ++ [(v, n)])) + 0)) by lia.
           apply (IH (pre ++ [(v, n)]) iv false fuel k E' G'); [lia|discriminate].
Qed.

Theorem count_repeats_exact : forall gs, is_grouping gs ->
  count_repeats (expand gs) = match loop_counts false gs with Some k => Ok k | None => UB "array index" end.
Proof.
  intros gs G. unfold count_repeats.
  pose proof (repeat_loop_ok gs [] (expand gs) false (S (length (expand gs))) 0 eq_refl G ltac:(lia) ltac:(discriminate)) as H.
  unfold to_outcome in H. rewrite N.add_0_l in H || idtac. cbn [expand flat_map length Nat.add Z.of_nat] in H. etransitivity; [exact H|].
  destruct (loop_counts false gs); reflexivity.
Qed.

(** Every increasing list has a grouping. *)
Fixpoint grouping (l : list N) : list (N * nat) :=
  match l with
  | [] => []
  | x :: r => match grouping r with
              | [] => [(x, 1%nat)]
              | (y, n) :: gs => if x =? y then (y, S n) :: gs else (x, 1%nat) :: (y, n) :: gs
              end
  end.
Lemma grouping_ok : forall l, StronglySorted N.le l -> is_grouping (grouping l) /\ expand (grouping l) = l.
Proof.
  induction l as [|x l IH]; intro H; [split; [split; constructor|reflexivity]|].
  apply StronglySorted_inv in H. destruct H as [H F]. destruct (IH H) as [[S1 S2] E]. clear IH.
  cbn [grouping]. destruct (grouping l) as [|[y n] gs] eqn:D.
  - split; [split; repeat constructor|]. cbn in E. rewrite <- E. reflexivity.
  - assert (LE : x <= y).
    { rewrite Forall_forall in F. apply F. rewrite <- E, expand_cons. inversion S2; subst. cbn in H2.
      destruct n; [lia|]. left. reflexivity. }
    destruct (N.eqb_spec x y) as [->|NE].
    + split; [split; [exact S1|]|].
      * inversion S2; subst. constructor; [cbn in *; lia|assumption].
      * rewrite expand_cons in *. cbn [repeat app]. rewrite E. reflexivity.
    + split; [split|].
      * cbn [map fst] in *. constructor; [exact S1|]. constructor; [lia|].
        apply StronglySorted_inv in S1. destruct S1 as [_ S1]. rewrite Forall_forall in *. intros z I.
        specialize (S1 z I). lia.
      * constructor; [cbn; lia|exact S2].
      * rewrite expand_cons. rewrite E. reflexivity.
Qed.

(** Number of repeated values of a grouping. *)
Lemma occ_repeat : forall v w n, occurrences v (repeat w n) = if v =? w then N.of_nat n else 0.
Proof.
  unfold occurrences. induction n; cbn [repeat countp]; [destruct (v =? w); reflexivity|].
  rewrite IHn. destruct (v =? w); lia.
Qed.
Lemma occ_notin : forall v l, ~ In v l -> occurrences v l = 0.
Proof.
  unfold occurrences. induction l; intro H; cbn [countp]; [reflexivity|].
  rewrite (proj2 (N.eqb_neq v a)) by (intros ->; apply H; left; reflexivity). rewrite IHl; [reflexivity|].
  intro I. apply H. right. exact I.
Qed.
Lemma nodup_repeat_app : forall v n l, (1 <= n)%nat -> ~ In v l ->
  nodup N.eq_dec (repeat v n ++ l) = v :: nodup N.eq_dec l.
Proof.
  induction n as [|n IH]; intros l H NI; [lia|]. destruct n as [|n].
  - cbn [repeat app nodup]. destruct (in_dec N.eq_dec v l); [contradiction|reflexivity].
  - change (repeat v (S (S n)) ++ l) with (v :: (repeat v (S n) ++ l)). cbn [nodup].
    destruct (in_dec N.eq_dec v (repeat v (S n) ++ l)) as [I|I]; [|exfalso; apply I; left; reflexivity].
    apply IH; [lia|exact NI].
Qed.
Lemma repeated_expand : forall gs, is_grouping gs ->
  repeated_values (expand gs) = countp (fun p => (2 <=? snd p)%nat) gs.
Proof.
  unfold repeated_values. intros gs H.
  assert (G : forall gs pre, is_grouping gs -> (forall v, In v (map fst gs) -> ~ In v pre) ->
     countp (fun v => 2 <=? occurrences v (pre ++ expand gs)) (nodup N.eq_dec (expand gs)) =
     countp (fun p => (2 <=? snd p)%nat) gs).
  { clear. induction gs as [|[v n] gs IH]; intros pre [S1 S2] D; [reflexivity|].
    rewrite expand_cons. cbn [map fst] in S1. apply StronglySorted_inv in S1. destruct S1 as [S1 F].
    inversion S2 as [|? ? P Q]; subst. cbn [snd] in P. rewrite Forall_forall in F.
    assert (NI : ~ In v (expand gs)) by (intro I; apply in_expand, F in I; lia).
    rewrite nodup_repeat_app by (try exact P; exact NI). cbn [countp snd]. f_equal.
    - unfold occurrences. rewrite !countp_app. fold (occurrences v pre) (occurrences v (repeat v n)) (occurrences v (expand gs)).
      rewrite occ_repeat, N.eqb_refl, (occ_notin v (expand gs)) by exact NI.
      rewrite occ_notin by (apply D; left; reflexivity).
      destruct (Nat.leb_spec 2 n); destruct (N.leb_spec 2 (0 + (N.of_nat n + 0))); lia.
    - rewrite <- (IH (pre ++ repeat v n)).
      + rewrite <- app_assoc. reflexivity.
      + split; assumption.
      + intros u I J. apply in_app_or in J. destruct J as [J|J].
        * apply (D u); [right; exact I|exact J].
        * apply repeat_spec in J. subst u. specialize (F v I). lia. }
  rewrite <- (G gs [] H); [reflexivity|]. intros v _ [].
Qed.

(** When the loop counts right: repeated values are never neighbours, and the
    largest is not repeated. *)
Definition isolated (l : list N) : Prop :=
  (forall v w, occurrences v l >= 2 -> occurrences w l >= 2 -> v < w -> exists u, In u l /\ v < u /\ u < w) /\
  (forall v, occurrences v l >= 2 -> exists u, In u l /\ v < u).

Lemma occ_expand : forall gs, is_grouping gs -> forall v n, In (v, n) gs -> occurrences v (expand gs) = N.of_nat n.
Proof.
  induction gs as [|[w m] gs IH]; intros [S1 S2] v n I; [destruct I|]. rewrite expand_cons.
  cbn [map fst] in S1. apply StronglySorted_inv in S1. destruct S1 as [S1 F]. rewrite Forall_forall in F.
  inversion S2; subst. unfold occurrences. rewrite countp_app.
  fold (occurrences v (repeat w m)) (occurrences v (expand gs)). rewrite occ_repeat.
  destruct I as [I|I].
  - inversion I; subst. rewrite N.eqb_refl, occ_notin; [lia|]. intro J. apply in_expand, F in J. lia.
  - assert (w < v) by (apply F; apply (in_map fst) in I; exact I).
    rewrite (proj2 (N.eqb_neq v w)) by lia. rewrite (IH (conj S1 H2) v n I). lia.
Qed.

Lemma isolated_counts : forall gs, is_grouping gs -> isolated (expand gs) ->
  loop_counts false gs = Some (countp (fun p => (2 <=? snd p)%nat) gs).
Proof.
  intros gs G [I1 I2].
  (* the condition on groups *)
  assert (C1 : forall pre v n w m post, gs = pre ++ (v, n) :: (w, m) :: post -> (2 <= n)%nat -> (2 <= m)%nat -> False).
  { intros pre v n w m post E Hn Hm.
    destruct (I1 v w) as (u & U & L1 & L2).
    - rewrite (occ_expand gs G v n); [lia|]. rewrite E. apply in_or_app. right. left. reflexivity.
    - rewrite (occ_expand gs G w m); [lia|]. rewrite E. apply in_or_app. right. right. left. reflexivity.
    - destruct G as [G _]. rewrite E, map_app in G. destruct (SS_app_inv _ _ _ _ G) as [G2 _]. cbn [map fst] in G2.
      apply StronglySorted_inv in G2. destruct G2 as [_ G2]. rewrite Forall_forall in G2. apply G2. left. reflexivity.
    - apply in_expand in U. destruct G as [G _]. rewrite E, map_app in G, U.
      destruct (SS_app_inv _ _ _ _ G) as [G2 G3]. apply in_app_or in U. destruct U as [U|U].
      + specialize (G3 u v U ltac:(left; reflexivity)). lia.
      + cbn [map fst] in U, G2. apply StronglySorted_inv in G2. destruct G2 as [G2 _].
        apply StronglySorted_inv in G2. destruct G2 as [_ G2]. rewrite Forall_forall in G2.
        destruct U as [U|[U|U]]; [lia|lia|]. specialize (G2 u U). lia. }
  assert (C2 : forall pre v n, gs = pre ++ [(v, n)] -> (2 <= n)%nat -> False).
  { intros pre v n E Hn. destruct (I2 v) as (u & U & L).
    - rewrite (occ_expand gs G v n); [lia|]. rewrite E. apply in_or_app. right. left. reflexivity.
    - apply in_expand in U. destruct G as [G _]. rewrite E, map_app in G, U.
      destruct (SS_app_inv _ _ _ _ G) as [_ G3]. apply in_app_or in U. destruct U as [U|[U|[]]].
      + specialize (G3 u v U ltac:(left; reflexivity)). lia.
      + cbn in U. subst u. clear - L. lia. }
  assert (P : Forall (fun p => 1 <= snd p)%nat gs) by apply G. clear G I1 I2.
  assert (X : forall suf pre skip, gs = pre ++ suf -> (skip = true -> match suf with (_, n) :: _ => (n = 1)%nat | [] => True end) ->
     loop_counts skip suf = Some (countp (fun p => (2 <=? snd p)%nat) suf)).
  { induction suf as [|[v n] suf IH]; intros pre skip E K; [reflexivity|]. cbn [loop_counts countp snd].
    assert (E2 : gs = (pre ++ [(v, n)]) ++ suf) by (rewrite <- app_assoc; exact E).
    destruct (Nat.leb_spec 2 n) as [T|T].
    - destruct skip; [specialize (K eq_refl); cbn in K; lia|].
      replace (2 <=? n)%nat with true by (symmetry; apply Nat.leb_le; exact T).
      destruct suf as [|[w m] suf]; [exfalso; apply (C2 pre v n E T)|].
      rewrite (IH _ true E2); [cbn [option_map]; f_equal; symmetry; apply N.add_1_l|]. intros _.
      assert (1 <= m)%nat.
      { rewrite Forall_forall in P. apply (P (w, m)). rewrite E. apply in_or_app. right. right. left. reflexivity. }
      destruct (Nat.leb_spec 2 m) as [Q|Q]; [exfalso; exact (C1 pre v n w m suf E T Q)|lia].
    - replace (2 <=? (if skip then n - 1 else n))%nat with false by (symmetry; apply Nat.leb_gt; destruct skip; lia).
      rewrite (IH _ false E2); [reflexivity|discriminate]. }
  apply (X gs [] false eq_refl). discriminate.
Qed.

Lemma count_repeats_isolated : forall l, StronglySorted N.le l -> isolated l -> count_repeats l = Ok (repeated_values l).
Proof.
  intros l H I. destruct (grouping_ok l H) as [G E]. rewrite <- E in I |- *.
  rewrite count_repeats_exact by exact G. rewrite isolated_counts by assumption. rewrite repeated_expand by exact G. reflexivity.
Qed.

(** Sorting a sorted list. *)
Lemma sorted_unique : forall a b, StronglySorted N.le a -> StronglySorted N.le b -> Permutation a b -> a = b.
Proof.
  induction a as [|x a IH]; intros b A B P; [apply Permutation_nil in P; auto|].
  destruct b as [|y b]; [apply Permutation_sym, Permutation_nil in P; discriminate|].
  apply StronglySorted_inv in A. apply StronglySorted_inv in B. destruct A as [A FA], B as [B FB].
  rewrite Forall_forall in FA, FB.
  assert (x = y).
  { assert (I : In x (y :: b)) by (eapply Permutation_in; [exact P|left; reflexivity]).
    assert (J : In y (x :: a)) by (eapply Permutation_in; [apply Permutation_sym, P|left; reflexivity]).
    destruct I as [I|I]; [auto|]. destruct J as [J|J]; [auto|]. specialize (FA y J). specialize (FB x I). lia. }
  subst y. f_equal. apply IH; auto. eapply Permutation_cons_inv, P.
Qed.
Lemma sort_sorted : forall srt, sorts srt -> forall l, StronglySorted N.le l -> srt l = l.
Proof. intros srt S l H. destruct (S l) as [P Q]. symmetry. apply sorted_unique; auto. Qed.

(** Differences of increasing numbers do not wrap. *)
Lemma intervals_spacings : forall l, StronglySorted N.le l -> (forall x, In x l -> x < 2 ^ 32) ->
  intervals l = spacings_from 0 l.
Proof.
  assert (D : forall l p, StronglySorted N.le (p :: l) -> (forall x, In x (p :: l) -> x < 2 ^ 32) ->
    differences p l = spacings_from p l).
  { induction l as [|x l IH]; intros p S B; [reflexivity|]. cbn [differences spacings_from].
    apply StronglySorted_inv in S. destruct S as [S F]. rewrite Forall_forall in F.
    rewrite IH by (try exact S; intros y I; apply B; right; exact I). f_equal. unfold sub32, u32_of_Z.
    specialize (F x ltac:(left; reflexivity)). pose proof (B x ltac:(right; left; reflexivity)).
    change (2 ^ 32) with 4294967296 in *. change (2 ^ 32)%Z with 4294967296%Z.
    rewrite Z.mod_small by lia. lia. }
  destruct l as [|x l]; intros S B; [reflexivity|]. cbn [intervals spacings_from]. rewrite N.sub_0_r. f_equal. apply D; assumption.
Qed.

(** A boolean test for sortedness, for examples. *)
Fixpoint inc (l : list N) : bool :=
  match l with [] => true | x :: r => forallb (N.leb x) r && inc r end.
Lemma inc_ok : forall l, inc l = true -> StronglySorted N.le l.
Proof.
  induction l; intro H; [constructor|]. cbn [inc] in H. apply andb_prop in H. destruct H as [F I].
  constructor; [auto|]. rewrite forallb_forall in F. apply Forall_forall. intros x J. apply N.leb_le. auto.
Qed.
