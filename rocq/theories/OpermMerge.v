(** The number of common orderings of two overlapping sets of positions. *)
From Coq Require Import Lia Bool.
From Verif Require Export CountLemmas.
Open Scope nat_scope.

Fixpoint binom (n k : nat) : nat :=
  match k, n with O, _ => 1 | S _, O => 0 | S k', S n' => binom n' k' + binom n' k end.
Lemma binom_0 n : binom n 0 = 1.
Proof. destruct n; reflexivity. Qed.
Lemma binom_big : forall n k, n < k -> binom n k = 0.
Proof. induction n as [|n IH]; intros [|k] H; try lia; [reflexivity|]. cbn [binom]. rewrite !IH by lia. reflexivity. Qed.
Lemma binom_diag : forall n, binom n n = 1.
Proof. induction n as [|n IH]; [reflexivity|]. cbn [binom]. rewrite IH, binom_big by lia. reflexivity. Qed.

(** an order, seen as its shared items and the numbers of others between them *)
Definition profile : Set := nat * list (nat * nat).
Fixpoint prof (sh : nat -> bool) (l : list nat) : profile :=
  match l with
  | [] => (0, [])
  | x :: l => let (g, r) := prof sh l in if sh x then (0, (x, g) :: r) else (S g, r)
  end.
Fixpoint ways (g : nat) (r : list (nat * nat)) (h : nat) (q : list (nat * nat)) : nat :=
  binom (g + h) g *
  match r, q with
  | [], [] => 1
  | (x, g) :: r, (y, h) :: q => if Nat.eqb x y then ways g r h q else 0
  | _, _ => 0
  end.
Definition pways (p q : profile) : nat := ways (fst p) (snd p) (fst q) (snd q).

Section Merge.
Variables w1 w2 : nat -> bool.
Definition sh (x : nat) : bool := w1 x && w2 x.
Definition merge (I J L : list nat) : Prop :=
  filter w1 L = I /\ filter w2 L = J /\ forall x, In x L -> w1 x || w2 x = true.
Definition then_ (x : nat) (P : list nat -> Prop) (L : list nat) : Prop := exists L', P L' /\ L = x :: L'.
Lemma exactly_then k x P : exactly k P -> exactly k (then_ x P).
Proof. intro H. apply exactly_image; [intros a b _ _ E; congruence|exact H]. Qed.
Lemma merge_nil I J : merge I J [] <-> I = [] /\ J = [].
Proof. unfold merge. cbn. intuition congruence. Qed.
Lemma merge_cons I J x L : merge I J (x :: L) <->
  (w1 x = true /\ w2 x = false /\ exists I', I = x :: I' /\ merge I' J L) \/
  (w1 x = false /\ w2 x = true /\ exists J', J = x :: J' /\ merge I J' L) \/
  (w1 x = true /\ w2 x = true /\ exists I' J', I = x :: I' /\ J = x :: J' /\ merge I' J' L).
Proof.
  unfold merge. cbn [filter]. split.
  - intros (A & B & C). pose proof (C x (or_introl eq_refl)) as X. assert (C' : forall y, In y L -> w1 y || w2 y = true) by (intros y Y; apply C; now right).
    destruct (w1 x), (w2 x); try discriminate X.
    + right. right. split; [reflexivity|]. split; [reflexivity|]. exists (filter w1 L), (filter w2 L). auto.
    + left. split; [reflexivity|]. split; [reflexivity|]. exists (filter w1 L). auto.
    + right. left. split; [reflexivity|]. split; [reflexivity|]. exists (filter w2 L). auto.
  - intros [(E1 & E2 & I' & -> & A & B & C)|[(E1 & E2 & J' & -> & A & B & C)|(E1 & E2 & I' & J' & -> & -> & A & B & C)]]; rewrite E1, E2; subst;
      (split; [reflexivity|split; [reflexivity|]]); intros y [<-|Y]; auto; now rewrite E1, E2.
Qed.
Lemma merge_count : forall n I J, length I + length J <= n ->
  (forall x, In x I -> w1 x = true) -> (forall x, In x J -> w2 x = true) ->
  exactly (pways (prof sh I) (prof sh J)) (merge I J).
Proof.
  induction n as [|n IH]; intros I J L HI HJ.
  { destruct I; [|cbn in L; lia]. destruct J; [|cbn in L; lia]. apply (exactly_one _ _ []). intro l. destruct l as [|x l].
    - rewrite merge_nil. intuition.
    - rewrite merge_cons. split; [|discriminate]. intros [(_ & _ & ? & ? & _)|[(_ & _ & ? & ? & _)|(_ & _ & ? & ? & ? & _)]]; discriminate. }
  destruct I as [|x I], J as [|y J].
  - apply (exactly_one _ _ []). intro l. destruct l as [|x l].
    + rewrite merge_nil. intuition.
    + rewrite merge_cons. split; [|discriminate]. intros [(_ & _ & ? & ? & _)|[(_ & _ & ? & ? & _)|(_ & _ & ? & ? & ? & _)]]; discriminate.
  - assert (Y2 : w2 y = true) by (apply HJ; now left). cbn [length] in L.
    cbn [prof]. unfold sh at 2. rewrite Y2, andb_true_r. pose proof (IH [] J ltac:(cbn; lia) HI (fun z Z => HJ z (or_intror Z))) as H.
    destruct (prof sh J) as (h, q). destruct (w1 y) eqn:Y1.
    + apply exactly_none. intros [|z l]; [rewrite merge_nil; intuition discriminate|]. rewrite merge_cons.
      intros [(_ & _ & ? & ? & _)|[(A & _ & ? & B & _)|(_ & _ & ? & ? & ? & _)]]; try discriminate. injection B as -> ->. congruence.
    + replace (pways (0, []) (S h, q)) with (pways (0, []) (h, q)) by (unfold pways; cbn [prof fst snd ways]; destruct q; cbn [ways]; rewrite !binom_0; reflexivity).
      apply (exactly_iff _ _ (then_ y (merge [] J))); [|now apply exactly_then].
      intros [|z l]; [rewrite merge_nil; unfold then_; split; [intros (? & _ & ?)|intros (_ & ?)]; discriminate|]. rewrite merge_cons. split.
      * intros (l' & M & A). injection A as -> ->. right. left. split; [exact Y1|]. split; [exact Y2|]. exists J. auto.
      * intros [(_ & _ & ? & ? & _)|[(A & _ & ? & B & M)|(_ & _ & ? & ? & ? & _)]]; try discriminate. injection B as -> ->. exists l. auto.
  - assert (X1 : w1 x = true) by (apply HI; now left). cbn [length] in L.
    cbn [prof]. assert (SX : sh x = w2 x) by (unfold sh; now rewrite X1). rewrite SX. pose proof (IH I [] ltac:(cbn; lia) (fun z Z => HI z (or_intror Z)) HJ) as H.
    destruct (prof sh I) as (g, r). destruct (w2 x) eqn:X2.
    + apply exactly_none. intros [|z l]; [rewrite merge_nil; intuition discriminate|]. rewrite merge_cons.
      intros [(_ & A & ? & B & _)|[(_ & _ & ? & ? & _)|(_ & _ & ? & ? & ? & ? & _)]]; try discriminate. injection B as -> ->. congruence.
    + replace (pways (S g, r) (0, [])) with (pways (g, r) (0, [])) by (unfold pways; cbn [prof fst snd]; destruct r as [|[]]; cbn [ways]; rewrite !Nat.add_0_r, !binom_diag; reflexivity).
      apply (exactly_iff _ _ (then_ x (merge I []))); [|now apply exactly_then].
      intros [|z l]; [rewrite merge_nil; unfold then_; split; [intros (? & _ & ?)|intros (? & _)]; discriminate|]. rewrite merge_cons. split.
      * intros (l' & M & A). injection A as -> ->. left. split; [exact X1|]. split; [exact X2|]. exists I. auto.
      * intros [(_ & _ & ? & B & M)|[(_ & _ & ? & ? & _)|(_ & _ & ? & ? & ? & ? & _)]]; try discriminate. injection B as -> ->. exists l. auto.
  - assert (X1 : w1 x = true) by (apply HI; now left). assert (Y2 : w2 y = true) by (apply HJ; now left). cbn [length] in L.
    pose proof (IH I (y :: J) ltac:(cbn; lia) (fun z Z => HI z (or_intror Z)) HJ) as H1.
    pose proof (IH (x :: I) J ltac:(cbn; lia) HI (fun z Z => HJ z (or_intror Z))) as H2.
    pose proof (IH I J ltac:(cbn; lia) (fun z Z => HI z (or_intror Z)) (fun z Z => HJ z (or_intror Z))) as H3.
    assert (NotNil : forall P : Prop, merge (x :: I) (y :: J) [] -> P) by (intros P M; apply merge_nil in M; destruct M; discriminate).
    cbn [prof] in H1, H2 |- *. assert (SX : sh x = w2 x) by (unfold sh; now rewrite X1). assert (SY : sh y = w1 y) by (unfold sh; now rewrite Y2, andb_true_r).
    rewrite SX in H2 |- *. rewrite SY in H1 |- *. destruct (prof sh I) as (g, r), (prof sh J) as (h, q).
    destruct (w2 x) eqn:X2, (w1 y) eqn:Y1.
    + unfold pways in H3 |- *. cbn [fst snd ways] in H3 |- *. rewrite binom_0. destruct (Nat.eqb_spec x y) as [->|D].
      * rewrite Nat.mul_1_l. apply (exactly_iff _ _ (then_ y (merge I J))); [|now apply exactly_then].
        intros [|z l]; [split; [intros (? & _ & ?); discriminate|intro M; exact (NotNil _ M)]|]. rewrite merge_cons. split.
        -- intros (l' & M & A). injection A as -> ->. right. right. split; [exact Y1|]. split; [exact Y2|]. exists I, J. auto.
        -- intros [(_ & A & ? & B & M)|[(A & _ & ? & B & _)|(_ & _ & ? & ? & B & B' & M)]]; try (injection B as -> ->; congruence).
           injection B as -> ->. injection B' as ->. exists l. auto.
      * rewrite Nat.mul_0_r. apply exactly_none. intros [|z l]; [intro M; exact (NotNil _ M)|]. rewrite merge_cons.
        intros [(_ & A & ? & B & M)|[(A & _ & ? & B & _)|(_ & _ & ? & ? & B & B' & M)]]; try (injection B as -> ->; congruence).
    + replace (pways (0, (x, g) :: r) (S h, q)) with (pways (0, (x, g) :: r) (h, q)) by (unfold pways; cbn [fst snd]; destruct q as [|[]]; cbn [ways]; rewrite !binom_0; reflexivity).
      apply (exactly_iff _ _ (then_ y (merge (x :: I) J))); [|now apply exactly_then].
      intros [|z l]; [split; [intros (? & _ & ?); discriminate|intro M; exact (NotNil _ M)]|]. rewrite merge_cons. split.
      * intros (l' & M & A). injection A as -> ->. right. left. split; [exact Y1|]. split; [exact Y2|]. exists J. auto.
      * intros [(_ & A & ? & B & M)|[(A & _ & ? & B & M)|(_ & _ & ? & ? & B & B' & M)]].
        -- injection B as -> ->. congruence.
        -- injection B as -> ->. exists l. auto.
        -- injection B as -> ->. injection B' as -> ->. congruence.
    + replace (pways (S g, r) (0, (y, h) :: q)) with (pways (g, r) (0, (y, h) :: q)) by (unfold pways; cbn [fst snd]; destruct r as [|[]]; cbn [ways]; rewrite !Nat.add_0_r, !binom_diag; reflexivity).
      apply (exactly_iff _ _ (then_ x (merge I (y :: J)))); [|now apply exactly_then].
      intros [|z l]; [split; [intros (? & _ & ?); discriminate|intro M; exact (NotNil _ M)]|]. rewrite merge_cons. split.
      * intros (l' & M & A). injection A as -> ->. left. split; [exact X1|]. split; [exact X2|]. exists I. auto.
      * intros [(_ & A & ? & B & M)|[(A & _ & ? & B & M)|(_ & _ & ? & ? & B & B' & M)]].
        -- injection B as -> ->. exists l. auto.
        -- injection B as -> ->. congruence.
        -- injection B as -> ->. injection B' as -> ->. congruence.
    + replace (pways (S g, r) (S h, q)) with (pways (g, r) (S h, q) + pways (S g, r) (h, q)).
      2:{ unfold pways. cbn [fst snd]. destruct r as [|[]], q as [|[]]; cbn [ways]; rewrite ?Nat.mul_0_r; try reflexivity; rewrite <- Nat.mul_add_distr_r; f_equal;
          replace (S g + S h) with (S (g + S h)) by lia; cbn [binom]; f_equal; f_equal; lia. }
      apply (exactly_iff _ _ (fun l => then_ x (merge I (y :: J)) l \/ then_ y (merge (x :: I) J) l)).
      * intros [|z l]; [split; [intros [(? & _ & ?)|(? & _ & ?)]; discriminate|intro M; exact (NotNil _ M)]|]. rewrite merge_cons. split.
        -- intros [(l' & M & A)|(l' & M & A)]; injection A as -> ->; [left|right; left]; (split; [assumption|split; [assumption|]]); [exists I|exists J]; auto.
        -- intros [(_ & A & ? & B & M)|[(A & _ & ? & B & M)|(_ & _ & ? & ? & B & B' & M)]].
           ++ injection B as -> ->. left. exists l. auto.
           ++ injection B as -> ->. right. exists l. auto.
           ++ injection B as -> ->. injection B' as -> ->. congruence.
      * apply exactly_union; [|now apply exactly_then|now apply exactly_then].
        intros l (l' & _ & ->) (l'' & _ & E). injection E as -> _. congruence.
Qed.
End Merge.
