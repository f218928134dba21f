(** Counting with [exactly]. *)
From Coq Require Import Lia.
From Verif Require Export OpermSpec.
Open Scope nat_scope.

Lemma exactly_iff A k (P Q : A -> Prop) : (forall x, P x <-> Q x) -> exactly k P -> exactly k Q.
Proof. intros H (l & N & I & L). exists l. split; [exact N|]. split; [|exact L]. intro x. rewrite I. apply H. Qed.
Lemma exactly_unique A j k (P : A -> Prop) : exactly j P -> exactly k P -> j = k.
Proof.
  intros (l & N & I & <-) (l' & N' & I' & <-). apply Permutation_length, NoDup_Permutation; auto.
  intro x. rewrite I, I'. reflexivity.
Qed.
Lemma exactly_none A (P : A -> Prop) : (forall x, ~ P x) -> exactly 0 P.
Proof. intro H. exists []. split; [constructor|]. split; [|reflexivity]. intro x. split; [intros []|intro K; now apply (H x)]. Qed.
Lemma exactly_one A (P : A -> Prop) a : (forall x, P x <-> x = a) -> exactly 1 P.
Proof.
  intro H. exists [a]. split; [constructor; [intros []|constructor]|]. split; [|reflexivity].
  intro x. rewrite H. cbn. intuition congruence.
Qed.
Lemma exactly_union A j k (P Q : A -> Prop) : (forall x, P x -> Q x -> False) -> exactly j P -> exactly k Q -> exactly (j + k) (fun x => P x \/ Q x).
Proof.
  intros D (l & N & I & L) (l' & N' & I' & L'). exists (l ++ l'). split; [|split].
  - clear L L'. revert N I. generalize P D. clear P D. induction l as [|a l IH]; intros P D N I; [exact N'|]. cbn. inversion N as [|? ? Na Nl]; subst. constructor.
    + rewrite in_app_iff. intros [H|H]; [contradiction|]. apply (D a); [apply I; now left|now apply I'].
    + apply (IH (fun x => In x l)); [|exact Nl|reflexivity]. intros x X Y. apply (D x); [apply I; now right|exact Y].
  - intro x. rewrite in_app_iff, I, I'. reflexivity.
  - rewrite app_length. congruence.
Qed.
Lemma exactly_image A B k (P : A -> Prop) (f : A -> B) : (forall x y, P x -> P y -> f x = f y -> x = y) ->
  exactly k P -> exactly k (fun y => exists x, P x /\ y = f x).
Proof.
  intros J (l & N & I & L). exists (map f l). split; [|split].
  - assert (G : forall x y, In x l -> In y l -> f x = f y -> x = y) by (intros x y X Y; apply J; now apply I).
    clear - N G. induction N as [|a l Na N IH]; cbn; constructor.
    + intro H. apply in_map_iff in H. destruct H as (b & E & H). rewrite (G b a) in H by (cbn; auto). contradiction.
    + apply IH. intros x y X Y. apply G; now right.
  - intro y. rewrite in_map_iff. split.
    + intros (x & <- & X). exists x. split; [now apply I|reflexivity].
    + intros (x & X & ->). exists x. split; [reflexivity|now apply I].
  - now rewrite map_length.
Qed.
(** each of g things has k things over it *)
Lemma exactly_fibers A B g k (Q : A -> Prop) (R : A -> B -> Prop) : (forall a a' b, R a b -> R a' b -> a = a') ->
  exactly g Q -> (forall a, Q a -> exactly k (R a)) -> exactly (g * k) (fun b => exists a, Q a /\ R a b).
Proof.
  intros F (l & N & I & <-) H. assert (G : forall a, In a l -> exactly k (R a)) by (intros a X; apply H; now apply I).
  apply (exactly_iff _ _ (fun b => exists a, In a l /\ R a b)).
  { intro b. split; intros (a & X & Y); exists a; (split; [now apply I|exact Y]). }
  clear I H. induction N as [|a l Na N IH]; cbn [length Nat.mul].
  - apply exactly_none. intros b (a & [] & _).
  - apply (exactly_iff _ _ (fun b => R a b \/ exists a', In a' l /\ R a' b)).
    { intro b. split.
      - intros [X|(a' & X & Y)]; [exists a; split; [now left|exact X]|exists a'; split; [now right|exact Y]].
      - intros (a' & [<-|X] & Y); [now left|right; exists a'; auto]. }
    apply exactly_union; [|apply G; now left|apply IH; intros x X; apply G; now right].
    intros b X (a' & Y & Z). rewrite (F _ _ _ X Z) in Na. contradiction.
Qed.
(** the same in steps of varying size *)
Lemma exactly_length A k (P : A -> Prop) l : NoDup l -> (forall x, In x l <-> P x) -> exactly k P -> length l = k.
Proof. intros N I H. symmetry. apply (exactly_unique _ _ _ P H). exists l. auto. Qed.

(** * Orderings of a part of the items *)
Fixpoint insertions (x : nat) (l : list nat) : list (list nat) :=
  match l with [] => [[x]] | y :: r => (x :: y :: r) :: map (cons y) (insertions x r) end.
Lemma insertions_length x l : length (insertions x l) = S (length l).
Proof. induction l as [|y r IH]; [reflexivity|]. cbn. now rewrite map_length, IH. Qed.
Lemma in_insertions x : forall l l', In l' (insertions x l) <-> exists a b, l = a ++ b /\ l' = a ++ x :: b.
Proof.
  induction l as [|y r IH]; intro l'; cbn [insertions].
  - split.
    + intros [<-|[]]. exists [], []. auto.
    + intros ([|? ?] & [|? ?] & E & ->); try discriminate. now left.
  - cbn [In]. rewrite in_map_iff. split.
    + intros [<-|(m & <- & M)]; [exists [], (y :: r); auto|]. apply IH in M. destruct M as (a & b & -> & ->). exists (y :: a), b. auto.
    + intros ([|z a] & b & E & ->); cbn in E.
      * left. now rewrite <- E.
      * right. injection E as <- ->. exists (a ++ x :: b). split; [reflexivity|]. apply IH. exists a, b. auto.
Qed.
Lemma insertions_nodup x : forall l, ~ In x l -> NoDup (insertions x l).
Proof.
  induction l as [|y r IH]; intro H; cbn [insertions]; [constructor; [intros []|constructor]|]. constructor.
  - intro I. apply in_map_iff in I. destruct I as (m & E & _). injection E as E _. apply H. now left.
  - apply FinFun.Injective_map_NoDup; [intros a b E; congruence|]. apply IH. intro I. apply H. now right.
Qed.
Lemma split_unique {A} (x : A) : forall a b a' b', ~ In x a -> ~ In x a' -> a ++ x :: b = a' ++ x :: b' -> a = a' /\ b = b'.
Proof.
  induction a as [|y a IH]; intros b [|z a'] b' H H' E; cbn in E.
  - injection E as ->. auto.
  - injection E as -> _. exfalso. apply H'. now left.
  - injection E as -> _. exfalso. apply H. now left.
  - injection E as -> E. destruct (IH b a' b') as (-> & ->); auto; intro I; [apply H|apply H']; now right.
Qed.
Lemma filter_insert (S : nat -> bool) (a b : list nat) x : S x = false -> filter S (a ++ x :: b) = filter S (a ++ b).
Proof. intro H. rewrite !filter_app. cbn [filter]. now rewrite H. Qed.
Fixpoint rising (m k : nat) : nat := match k with O => 1 | S k => rising m k * S (m + k) end.
Lemma rising_fact m k : rising m k * fact m = fact (m + k).
Proof.
  induction k as [|k IH]; cbn [rising]; [rewrite Nat.add_0_r; lia|]. rewrite Nat.add_succ_r.
  change (fact (S (m + k))) with (S (m + k) * fact (m + k)). rewrite <- IH. ring.
Qed.
(** the orderings of outs ++ L in which the items of L are in this order *)
Lemma exactly_restricted (S : nat -> bool) (L : list nat) : NoDup L -> (forall x, In x L -> S x = true) -> forall outs, NoDup (outs ++ L) -> (forall x, In x outs -> S x = false) ->
  exactly (rising (length L) (length outs)) (fun pi => Permutation pi (outs ++ L) /\ filter S pi = L).
Proof.
  intros NL SL. induction outs as [|x outs IH]; intros N SO.
  - apply (exactly_one _ _ L). intro pi. cbn [app]. split.
    + intros (P & F). rewrite <- F. clear F N SO. assert (G : forall y, In y pi -> S y = true) by (intros y Y; apply SL; now apply (Permutation_in _ P)).
      clear P. induction pi as [|y pi IH]; [reflexivity|]. cbn [filter]. rewrite (G y) by now left. f_equal. apply IH. intros z Z. apply G. now right.
    + intros ->. split; [reflexivity|]. clear N SO NL. induction L as [|y L IH]; [reflexivity|]. cbn [filter]. rewrite (SL y) by now left. f_equal. apply IH. intros z Z. apply SL. now right.
  - cbn [app] in N. inversion N as [|? ? Nx Nr]; subst. cbn [length rising].
    assert (H := IH Nr (fun y Y => SO y (or_intror Y))). assert (Sx : S x = false) by (apply SO; now left).
    apply (exactly_iff _ _ (fun pi' => exists pi, (Permutation pi (outs ++ L) /\ filter S pi = L) /\ (~ In x pi /\ In pi' (insertions x pi)))).
    { intro pi'. split.
      - intros (pi & (P & F) & Nx' & I). apply in_insertions in I. destruct I as (a & b & -> & ->). split.
        + change ((x :: outs) ++ L) with (x :: (outs ++ L)). rewrite <- P. symmetry. apply Permutation_middle.
        + now rewrite filter_insert.
      - change ((x :: outs) ++ L) with (x :: (outs ++ L)). intros (P & F). assert (I : In x pi') by (apply (Permutation_in _ (Permutation_sym P)); now left).
        apply in_split in I. destruct I as (a & b & ->). exists (a ++ b). rewrite (filter_insert S a b x Sx) in F.
        assert (P' : Permutation (a ++ b) (outs ++ L)).
        { apply Permutation_cons_inv with x. rewrite <- P. apply Permutation_middle. }
        split; [split; [exact P'|exact F]|]. split; [|apply in_insertions; exists a, b; auto].
        intro I. apply Nx. now apply (Permutation_in _ P'). }
    replace (Datatypes.S (length L + length outs)) with (Datatypes.S (length (outs ++ L))) by (rewrite app_length; lia).
    apply (exactly_fibers _ _ _ _ _ (fun pi pi' => ~ In x pi /\ In pi' (insertions x pi))).
    + intros p p' q (N1 & I1) (N2 & I2). apply in_insertions in I1, I2. destruct I1 as (a & b & -> & ->), I2 as (a' & b' & -> & E).
      destruct (split_unique x a b a' b') as (-> & ->); auto; intro K; [apply N1|apply N2]; apply in_or_app; now left.
    + exact H.
    + intros pi (P & F). assert (Npi : ~ In x pi) by (intro K; apply Nx; now apply (Permutation_in _ P)).
      exists (insertions x pi). split; [now apply insertions_nodup|]. split; [|rewrite insertions_length; f_equal; now apply Permutation_length].
      intro q. tauto.
Qed.
