(** Counting orderings by their pattern of rises and falls. *)
From Coq Require Import Lia Bool.
From Verif Require Export OpermAverage.
Open Scope nat_scope.

Lemma binom_fact : forall n k, k <= n -> binom n k * fact k * fact (n - k) = fact n.
Proof.
  induction n as [|n IH]; intros k H.
  - assert (k = 0) by lia. subst. reflexivity.
  - destruct k as [|k]; [cbn [binom fact Nat.sub]; lia|]. cbn [binom Nat.sub]. destruct (Nat.eq_dec k n) as [->|N].
    + rewrite (binom_big n (S n)) by lia. rewrite Nat.sub_diag, binom_diag. cbn [fact]. lia.
    + pose proof (IH k ltac:(lia)) as A. pose proof (IH (S k) ltac:(lia)) as B.
      replace (n - k) with (S (n - S k)) in * by lia. change (fact (S n)) with (S n * fact n). change (fact (S k)) with (S k * fact k) in *.
      change (fact (S (n - S k))) with (S (n - S k) * fact (n - S k)) in *.
      replace (S n * fact n) with (S k * fact n + S (n - S k) * fact n) by nia. rewrite <- A at 1. rewrite <- B. ring.
Qed.

(** ** the pattern: rise, fall or either at each step *)
Definition pattern : Set := list (option bool).
Fixpoint pcount (k : nat) (l : pattern) : Z :=
  match l with
  | [] => 1
  | o :: r =>
    let free := (Z.of_nat (binom (k + S (length r)) k) * pcount 1 r)%Z in
    match o with None => free | Some true => pcount (S k) r | Some false => (free - pcount (S k) r)%Z end
  end.

Definition before (pi : list nat) (x y : nat) : bool := place pi x <? place pi y.
(** from x through ys *)
Fixpoint fits (pi : list nat) (x : nat) (ys : list nat) (l : pattern) : bool :=
  match ys, l with
  | y :: ys, o :: l => match o with None => true | Some b => Bool.eqb (before pi x y) b end && fits pi y ys l
  | _, _ => true
  end.
Definition mem (L : list nat) (x : nat) : bool := existsb (Nat.eqb x) L.
(** the items of L come in this order *)
Definition inorder (pi L : list nat) : Prop := filter (mem L) pi = L.

Lemma exactly_split A a (P : A -> Prop) (q : A -> bool) b : exactly a P -> exactly b (fun x => P x /\ q x = true) ->
  b <= a /\ exactly (a - b) (fun x => P x /\ q x = false).
Proof.
  intros (l & N & I & L) E. assert (B : length (filter q l) = b).
  { apply (exactly_length _ _ _ _ (NoDup_filter _ N)) with (2 := E). intro x. rewrite filter_In, I. reflexivity. }
  assert (F : forall l, length (filter q l) + length (filter (fun x => negb (q x)) l) = length l).
  { clear. induction l as [|x l IH]; [reflexivity|]. cbn [filter]. destruct (q x); cbn [negb length]; lia. }
  specialize (F l).
  split; [lia|]. exists (filter (fun x => negb (q x)) l). split; [now apply NoDup_filter|]. split; [|lia].
  intro x. rewrite filter_In, I, negb_true_iff. reflexivity.
Qed.

Lemma mem_in L x : mem L x = true <-> In x L.
Proof. unfold mem. rewrite existsb_exists. split; [intros (y & Y & E); apply Nat.eqb_eq in E; now subst|]. intro H. exists x. split; [exact H|apply Nat.eqb_refl]. Qed.
Lemma mem_out L x : mem L x = false <-> ~ In x L.
Proof. rewrite <- mem_in. destruct (mem L x); split; congruence. Qed.
Lemma filter_all {A} (f : A -> bool) l : (forall x, In x l -> f x = true) -> filter f l = l.
Proof. induction l as [|x l IH]; intro H; [reflexivity|]. cbn [filter]. rewrite (H x) by now left. f_equal. apply IH. intros; apply H; now right. Qed.
Lemma filter_none {A} (f : A -> bool) l : (forall x, In x l -> f x = false) -> filter f l = [].
Proof. induction l as [|x l IH]; intro H; [reflexivity|]. cbn [filter]. rewrite (H x) by now left. apply IH. intros; apply H; now right. Qed.
Lemma place_app_l a b x : In x a -> place (a ++ b) x < length a.
Proof.
  induction a as [|y a IH]; [intros []|]. cbn [app place length]. destruct (Nat.eqb_spec y x) as [->|N]; [lia|].
  intros [E|I]; [congruence|]. specialize (IH I). lia.
Qed.
Lemma place_app_r a b x : ~ In x a -> place (a ++ b) x = length a + place b x.
Proof.
  induction a as [|y a IH]; [reflexivity|]. cbn [app place length In]. destruct (Nat.eqb_spec y x) as [->|N]; [tauto|].
  intro H. rewrite IH by tauto. lia.
Qed.
Lemma before_split a b x y : NoDup (a ++ y :: b) -> In x (a ++ y :: b) -> x <> y -> (before (a ++ y :: b) x y = true <-> In x a).
Proof.
  intros N I D. assert (Ya : ~ In y a) by (intro K; apply NoDup_remove_2 in N; apply N, in_or_app; now left).
  unfold before. rewrite Nat.ltb_lt, (place_app_r a (y :: b) y Ya). cbn [place]. rewrite Nat.eqb_refl. split.
  - intro H. apply in_app_iff in I. destruct I as [I|[I|I]]; [exact I|congruence|].
    assert (~ In x a). { intro K. apply (NoDup_remove_2 a b y) with (1 := N). exfalso. clear H. apply in_split in K. destruct K as (u & v & ->). rewrite <- app_assoc in N. cbn [app] in N. apply NoDup_remove_2 in N. apply N. apply in_or_app. right. apply in_or_app. right. now right. }
    rewrite (place_app_r a (y :: b) x) in H by assumption. lia.
  - intro H. pose proof (place_app_l a (y :: b) x H). lia.
Qed.

Lemma filter_ext_in' {A} (f g : A -> bool) l : (forall x, In x l -> f x = g x) -> filter f l = filter g l.
Proof. apply filter_ext_in. Qed.

Lemma inorder_snoc pi L x y : NoDup pi -> (forall z, In z (L ++ [x; y]) -> In z pi) -> NoDup (L ++ [x; y]) ->
  (inorder pi (L ++ [x; y]) <-> inorder pi (L ++ [x]) /\ before pi x y = true).
Proof.
  intros N I D. assert (Iy : In y pi) by (apply I, in_or_app; right; right; now left).
  assert (Ix : In x pi) by (apply I, in_or_app; right; now left).
  assert (D' : NoDup (y :: L ++ [x])) by (replace (L ++ [x; y]) with ((L ++ [x]) ++ [y]) in D by (rewrite <- app_assoc; reflexivity); apply (Permutation_NoDup (l := (L ++ [x]) ++ [y])); [symmetry; apply Permutation_cons_append|exact D]).
  apply NoDup_cons_iff in D'. destruct D' as (Ny & NL).
  assert (Dxy : x <> y) by (intros ->; apply Ny, in_or_app; right; now left).
  apply in_split in Iy. destruct Iy as (a & b & ->). rewrite (before_split a b x y N Ix Dxy).
  assert (Ya : ~ In y a /\ ~ In y b) by (apply NoDup_remove_2 in N; rewrite in_app_iff in N; tauto).
  unfold inorder. rewrite !filter_app. cbn [filter].
  replace (mem (L ++ [x; y]) y) with true by (symmetry; apply mem_in, in_or_app; right; right; now left).
  replace (mem (L ++ [x]) y) with false by (symmetry; now apply mem_out).
  assert (E : forall l, ~ In y l -> filter (mem (L ++ [x; y])) l = filter (mem (L ++ [x])) l).
  { intros l Hl. apply filter_ext_in. intros z Z. apply eq_true_iff_eq. rewrite !mem_in, !in_app_iff. cbn [In]. assert (z <> y) by (intros ->; auto). intuition congruence. }
  rewrite !E by tauto. replace (L ++ [x; y]) with ((L ++ [x]) ++ [y]) by (rewrite <- app_assoc; reflexivity).
  set (fa := filter _ a) in *. set (fb := filter _ b) in *. split.
  - intro H. destruct (split_unique y fa fb (L ++ [x]) []) as (Ea & Eb); [unfold fa; rewrite filter_In; tauto|exact Ny|exact H|].
    split; [rewrite Ea, Eb; apply app_nil_r|]. assert (X : In x fa) by (rewrite Ea; apply in_or_app; right; now left). now apply filter_In in X.
  - intros (H & Xa). destruct fb as [|z0 m0] eqn:Ef; [rewrite app_nil_r in H; now rewrite H|]. exfalso.
    destruct (@exists_last _ (z0 :: m0) ltac:(discriminate)) as (m & z & Em). rewrite Em, app_assoc in H. apply app_inj_tail in H. destruct H as (_ & ->).
    assert (Xb : In x b). { assert (K : In x fb) by (rewrite Ef, Em; apply in_or_app; right; now left). unfold fb in K. now apply filter_In in K. }
    apply in_split in Xa. destruct Xa as (u & v & ->). rewrite <- app_assoc in N. cbn [app] in N. apply NoDup_remove_2 in N. apply N. rewrite !in_app_iff. right. right. now right.
Qed.
Lemma inorder_one pi x : NoDup pi -> In x pi -> inorder pi [x].
Proof.
  intros N I. apply in_split in I. destruct I as (a & b & ->). apply NoDup_remove_2 in N. rewrite in_app_iff in N. unfold inorder.
  rewrite filter_app. cbn [filter]. replace (mem [x] x) with true by (symmetry; apply mem_in; now left).
  rewrite !(filter_none (mem [x])); [reflexivity| |]; intros y Y; apply mem_out; intros [->|[]]; tauto.
Qed.
Lemma before_filter f pi x y : In x pi -> In y pi -> f x = true -> f y = true -> before (filter f pi) x y = before pi x y.
Proof.
  intros X Y Fx Fy. unfold before. pose proof (place_filter f pi y x Y X Fy Fx) as H. apply eq_true_iff_eq. rewrite !Nat.ltb_lt. lia.
Qed.
Lemma fits_filter f pi : forall ys x l, (forall y, In y (x :: ys) -> In y pi /\ f y = true) -> fits (filter f pi) x ys l = fits pi x ys l.
Proof.
  induction ys as [|y ys IH]; intros x [|o l] H; try reflexivity. cbn [fits]. rewrite IH by (intros z Z; apply H; now right).
  destruct (H x (or_introl eq_refl)) as (X & Fx). destruct (H y (or_intror (or_introl eq_refl))) as (Y & Fy).
  now rewrite before_filter.
Qed.

Lemma prof_none : forall f l, (forall x, In x l -> f x = false) -> prof f l = (length l, []).
Proof. induction l as [|x l IH]; intro H; [reflexivity|]. cbn [prof length]. rewrite IH by (intros; apply H; now right). now rewrite (H x) by now left. Qed.

(** ways to insert an ordered list into another one *)
Lemma merge_disjoint L pi' : NoDup (L ++ pi') ->
  exactly (binom (length L + length pi') (length L)) (fun pi => Permutation pi (L ++ pi') /\ inorder pi L /\ filter (fun x => negb (mem L x)) pi = pi').
Proof.
  intro N. set (w2 := fun x => negb (mem L x)).
  assert (O : forall x, In x pi' -> w2 x = true).
  { intros x X. apply negb_true_iff, mem_out. intro K. apply in_split in X. destruct X as (u & v & ->). rewrite app_assoc in N. apply NoDup_remove_2 in N. apply N. rewrite !in_app_iff. auto. }
  apply (exactly_iff _ _ (merge (mem L) w2 L pi')).
  - intro pi. unfold merge, inorder. split.
    + intros (A & B & C). split; [|auto]. rewrite <- A at 1. rewrite <- B. clear. induction pi as [|x pi IH]; [reflexivity|].
      unfold w2. cbn [filter]. destruct (mem L x); cbn [negb app]; [now apply perm_skip|]. eapply perm_trans; [apply perm_skip, IH|]. apply Permutation_middle.
    + intros (P & A & B). split; [exact A|]. split; [exact B|]. intros x X. unfold w2. destruct (mem L x); reflexivity.
  - assert (E : binom (length L + length pi') (length L) = pways (prof (sh (mem L) w2) L) (prof (sh (mem L) w2) pi')).
    { rewrite !prof_none by (intros x _; unfold sh, w2; destruct (mem L x); reflexivity). unfold pways. cbn [fst snd ways]. lia. }
    rewrite E. apply (merge_count _ _ (length L + length pi')); [lia| |exact O]. intros x X. now apply mem_in.
Qed.

Lemma nodup_l {A} (a b : list A) : NoDup (a ++ b) -> NoDup a.
Proof. induction a as [|x a IH]; [constructor|]. cbn. rewrite !NoDup_cons_iff, in_app_iff. tauto. Qed.
Lemma nodup_r {A} (a b : list A) : NoDup (a ++ b) -> NoDup b.
Proof. induction a as [|x a IH]; [auto|]. cbn. rewrite NoDup_cons_iff. tauto. Qed.

Lemma pattern_count : forall l L x ys outs, length ys = length l -> NoDup ((L ++ [x]) ++ ys ++ outs) ->
  exists N, exactly N (fun pi => Permutation pi ((L ++ [x]) ++ ys ++ outs) /\ inorder pi (L ++ [x]) /\ fits pi x ys l = true) /\
    (Z.of_nat N * Z.of_nat (fact (S (length L) + length l)) = Z.of_nat (fact (S (length L) + length l + length outs)) * pcount (S (length L)) l)%Z.
Proof.
  induction l as [|o l IH]; intros L x ys outs Hy N.
  - destruct ys; [|discriminate]. cbn [app length] in *. exists (rising (length (L ++ [x])) (length outs)). split.
    + apply (exactly_iff _ _ (fun pi => Permutation pi (outs ++ L ++ [x]) /\ filter (mem (L ++ [x])) pi = L ++ [x])).
      { intro pi. unfold inorder. cbn [fits]. rewrite (Permutation_app_comm outs). tauto. }
      assert (N' : NoDup (outs ++ L ++ [x])) by (eapply Permutation_NoDup; [apply Permutation_app_comm|exact N]).
      apply exactly_restricted; [exact (nodup_l _ _ N)| |exact N'|].
      * intros y Y. now apply mem_in.
      * intros y Y. apply mem_out. intro K. apply in_split in Y. destruct Y as (u & v & ->). rewrite <- app_assoc in N'. cbn [app] in N'. apply NoDup_remove_2 in N'. apply N'. rewrite !in_app_iff. rewrite in_app_iff in K. tauto.
    + cbn [pcount]. pose proof (rising_fact (length (L ++ [x])) (length outs)) as F. rewrite app_length in *. cbn [length] in *.
      replace (S (length L) + 0) with (length L + 1) by lia. rewrite <- F. lia.
  - destruct ys as [|y ys]; [discriminate|]. injection Hy as Hy.
    set (k := S (length L)).
    (* the free step *)
    assert (Free : exists N, exactly N (fun pi => Permutation pi ((L ++ [x]) ++ (y :: ys) ++ outs) /\ inorder pi (L ++ [x]) /\ fits pi y ys l = true) /\
      (Z.of_nat N * Z.of_nat (fact (k + S (length l))) = Z.of_nat (fact (k + S (length l) + length outs)) * (Z.of_nat (binom (k + S (length l)) k) * pcount 1 l))%Z).
    { destruct (IH [] y ys outs Hy) as (M & EM & FM).
      { cbn [app]. exact (nodup_r _ _ N). }
      cbn [app length] in EM, FM. exists (M * binom (length (L ++ [x]) + length (y :: ys ++ outs)) (length (L ++ [x]))). split.
      - apply (exactly_iff _ _ (fun pi => exists pi', (Permutation pi' (y :: ys ++ outs) /\ inorder pi' [y] /\ fits pi' y ys l = true) /\
          (Permutation pi' (y :: ys ++ outs) /\ Permutation pi ((L ++ [x]) ++ pi') /\ inorder pi (L ++ [x]) /\ filter (fun z => negb (mem (L ++ [x]) z)) pi = pi'))).
        { intro pi.
          assert (Out : forall z, In z (y :: ys ++ outs) -> negb (mem (L ++ [x]) z) = true).
          { intros z Z. apply negb_true_iff, mem_out. intro K. change ((y :: ys) ++ outs) with (y :: ys ++ outs) in N. apply in_split in Z. destruct Z as (u & v & E). rewrite E, app_assoc in N. apply NoDup_remove_2 in N. apply N. rewrite !in_app_iff. rewrite in_app_iff in K. tauto. }
          split.
          - intros (pi' & (P & _ & F) & _ & P' & O & E). split; [rewrite P'; apply Permutation_app_head; exact P|]. split; [exact O|].
            rewrite <- E in F. rewrite fits_filter in F; [exact F|]. intros z Z. split.
            + apply (Permutation_in z (Permutation_sym P')). apply in_or_app. right. apply (Permutation_in z (Permutation_sym P)). destruct Z as [->|Z]; [now left|right; apply in_or_app; now left].
            + apply Out. destruct Z as [->|Z]; [now left|right; apply in_or_app; now left].
          - intros (P & O & F). exists (filter (fun z => negb (mem (L ++ [x]) z)) pi).
            assert (P' : Permutation (filter (fun z => negb (mem (L ++ [x]) z)) pi) (y :: ys ++ outs)).
            { assert (Q : Permutation (filter (fun z => negb (mem (L ++ [x]) z)) pi) (filter (fun z => negb (mem (L ++ [x]) z)) ((L ++ [x]) ++ (y :: ys) ++ outs))).
              { clear - P. revert P. generalize ((L ++ [x]) ++ (y :: ys) ++ outs). generalize (fun z => negb (mem (L ++ [x]) z)). clear. intros f l P. induction P; cbn [filter]; [constructor|destruct (f x); [now constructor|exact IHP]|destruct (f x), (f y); try apply Permutation_refl; apply perm_swap|now transitivity (filter f l')]. }
              rewrite Q, filter_app. rewrite filter_none, filter_all; [reflexivity|exact Out|]. intros z Z. apply negb_false_iff. now apply mem_in. }
            assert (Np : NoDup pi) by (eapply Permutation_NoDup; [symmetry; exact P|exact N]).
            split; [split; [exact P'|split]|split; [exact P'|split; [|split; [exact O|reflexivity]]]].
            + apply inorder_one; [now apply NoDup_filter|]. apply (Permutation_in _ (Permutation_sym P')). now left.
            + rewrite fits_filter; [exact F|]. intros z Z. split; [|apply Out; destruct Z as [->|Z]; [now left|right; apply in_or_app; now left]].
              apply (Permutation_in z (Permutation_sym P)). apply in_or_app. right. destruct Z as [->|Z]; [now left|right; apply in_or_app; now left].
            + rewrite P'. exact P. }
        apply exactly_fibers.
        + intros a a' b (_ & _ & _ & <-) (_ & _ & _ & <-). reflexivity.
        + exact EM.
        + intros pi' (P & _ & _). rewrite <- (Permutation_length P).
          apply (exactly_iff _ _ (fun pi => Permutation pi ((L ++ [x]) ++ pi') /\ inorder pi (L ++ [x]) /\ filter (fun z => negb (mem (L ++ [x]) z)) pi = pi')); [intro pi; tauto|].
          apply merge_disjoint. eapply Permutation_NoDup; [|exact N]. apply Permutation_app_head. symmetry. exact P.
      - rewrite app_length. cbn [length]. rewrite app_length, Hy. replace (length L + 1) with k by (unfold k; lia).
        pose proof (binom_fact (k + S (length l + length outs)) k ltac:(lia)) as B1. pose proof (binom_fact (k + S (length l)) k ltac:(lia)) as B2.
        replace (k + S (length l + length outs) - k) with (1 + length l + length outs) in B1 by lia. replace (k + S (length l) - k) with (1 + length l) in B2 by lia.
        replace (k + S (length l) + length outs) with (k + S (length l + length outs)) by lia. rewrite <- B1, <- B2 at 1. rewrite !Nat2Z.inj_mul.
        set (b1 := Z.of_nat (binom (k + S (length l + length outs)) k)). set (b2 := Z.of_nat (binom (k + S (length l)) k)).
        transitivity (b1 * b2 * Z.of_nat (fact k) * (Z.of_nat M * Z.of_nat (fact (1 + length l))))%Z; [ring|rewrite FM; ring]. }
    (* the rising step *)
    assert (Sn : L ++ [x; y] = (L ++ [x]) ++ [y]) by (rewrite <- app_assoc; reflexivity).
    assert (Up : exists N, exactly N (fun pi => (Permutation pi ((L ++ [x]) ++ (y :: ys) ++ outs) /\ inorder pi (L ++ [x]) /\ fits pi y ys l = true) /\ before pi x y = true) /\
      (Z.of_nat N * Z.of_nat (fact (k + S (length l))) = Z.of_nat (fact (k + S (length l) + length outs)) * pcount (S k) l)%Z).
    { assert (N' : NoDup (((L ++ [x]) ++ [y]) ++ ys ++ outs)) by (rewrite <- app_assoc; exact N).
      destruct (IH (L ++ [x]) y ys outs Hy N') as (M & EM & FM). exists M. split.
      - revert EM. apply exactly_iff. intro pi. rewrite <- app_assoc. cbn [app].
        split.
        + intros (P & O & F). assert (Np : NoDup pi) by (eapply Permutation_NoDup; [symmetry; exact P|exact N]).
          rewrite <- Sn in O. apply inorder_snoc in O; [tauto|exact Np| |rewrite Sn; exact (nodup_l _ _ N')].
          intros z Z. apply (Permutation_in _ (Permutation_sym P)). rewrite !in_app_iff in *. cbn [In] in *. tauto.
        + intros ((P & O & F) & B). assert (Np : NoDup pi) by (eapply Permutation_NoDup; [symmetry; exact P|exact N]).
          split; [exact P|]. split; [|exact F]. rewrite <- Sn. apply inorder_snoc; [exact Np| |rewrite Sn; exact (nodup_l _ _ N')|tauto].
          intros z Z. apply (Permutation_in _ (Permutation_sym P)). rewrite !in_app_iff in *. cbn [In] in *. tauto.
      - rewrite app_length in FM. cbn [length] in FM. replace (S (length L + 1)) with (S k) in FM by (unfold k; lia).
        replace (S k + length l) with (k + S (length l)) in FM by lia. exact FM. }
    destruct Free as (M & EM & FM). destruct Up as (U & EU & FU). cbn [length]. fold k. cbn [pcount].
    destruct o as [[|]|].
    + exists U. split; [|exact FU]. revert EU. apply exactly_iff. intro pi. cbn [fits]. destruct (before pi x y); cbn [Bool.eqb andb]; intuition congruence.
    + destruct (exactly_split _ _ _ _ _ EM EU) as (Le & ED). exists (M - U). split.
      * revert ED. apply exactly_iff. intro pi. cbn [fits]. destruct (before pi x y); cbn [Bool.eqb andb]; intuition congruence.
      * rewrite Nat2Z.inj_sub by exact Le. rewrite Z.mul_sub_distr_r, Z.mul_sub_distr_l, FM, FU. reflexivity.
    + exists M. split; [|exact FM]. revert EM. apply exactly_iff. intro pi. cbn [fits andb]. tauto.
Qed.
