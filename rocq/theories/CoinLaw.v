From Coq Require Import List NArith Reals Lia Lra.
From Verif Require Import CoinSpec OpermReal RunsArcs RunsLaw.
Import ListNotations.
Open Scope R_scope.

Fixpoint Ex {A} (c : coin A) (f : A -> R) : R :=
  match c with Ret a => f a | Flip k => (Ex (k false) f + Ex (k true) f) / 2 end.
Fixpoint within {A} (n : nat) (c : coin A) {struct c} : Prop :=
  match c with Ret _ => True | Flip k => match n with O => False | S n => within n (k false) /\ within n (k true) end end.

Lemma within_le {A} (c : coin A) : forall n m, (n <= m)%nat -> within n c -> within m c.
Proof.
  induction c as [a|k IH]; intros n m L W; cbn in *; [exact I|]. destruct n as [|n]; [destruct W|]. destruct m as [|m]; [lia|].
  destruct W. split; apply (IH _ n); auto; lia.
Qed.
Lemma within_bind {A B} (c : coin A) (k : A -> coin B) : forall n m, within n c -> (forall a, within m (k a)) -> within (n + m) (cbind c k).
Proof.
  induction c as [a|f IH]; intros n m W K; cbn in *.
  - apply (within_le _ m); [lia|apply K].
  - destruct n as [|n]; [destruct W|]. cbn. destruct W. split; apply IH; auto.
Qed.
Lemma Ex_bind {A B} (c : coin A) (k : A -> coin B) f : Ex (cbind c k) f = Ex c (fun a => Ex (k a) f).
Proof. induction c as [a|g IH]; cbn; [reflexivity|]. rewrite !IH. reflexivity. Qed.
Lemma Ex_ext {A} (c : coin A) f g : (forall a, f a = g a) -> Ex c f = Ex c g.
Proof. intro H. induction c as [a|k IH]; cbn; [apply H|]. rewrite !IH. reflexivity. Qed.
Lemma Ex_scale {A} (c : coin A) x f : Ex c (fun a => x * f a) = x * Ex c f.
Proof. induction c as [a|k IH]; cbn; [reflexivity|]. rewrite !IH. field. Qed.
Lemma Ex_scale_r {A} (c : coin A) x f : Ex c (fun a => f a * x) = Ex c f * x.
Proof. induction c as [a|k IH]; cbn; [reflexivity|]. rewrite !IH. field. Qed.
Lemma Ex_plus {A} (c : coin A) f g : Ex c (fun a => f a + g a) = Ex c f + Ex c g.
Proof. induction c as [a|k IH]; cbn; [reflexivity|]. rewrite !IH. field. Qed.
Lemma Ex_minus {A} (c : coin A) f g : Ex c (fun a => f a - g a) = Ex c f - Ex c g.
Proof. induction c as [a|k IH]; cbn; [reflexivity|]. rewrite !IH. field. Qed.
Lemma Ex_const {A} (c : coin A) x : Ex c (fun _ => x) = x.
Proof. induction c as [a|k IH]; cbn; [reflexivity|]. rewrite !IH. field. Qed.
Lemma Ex_rsum {A} (c : coin A) n (f : nat -> A -> R) : Ex c (fun a => rsum n (fun k => f k a)) = rsum n (fun k => Ex c (f k)).
Proof. induction n as [|n IH]; cbn [rsum]; [apply Ex_const|]. rewrite Ex_plus, IH. reflexivity. Qed.

Lemma strings_length n : INR (length (strings n)) = 2 ^ n.
Proof. induction n as [|n IH]; cbn [strings]; [cbn; ring|]. rewrite app_length, !map_length, plus_INR, IH. cbn. ring. Qed.
Lemma lsumR_app {A} (l m : list A) f : lsumR (l ++ m) f = lsumR l f + lsumR m f.
Proof. induction l as [|x l IH]; cbn; [ring|]. rewrite IH. ring. Qed.
Lemma lsumR_map {A B} (h : A -> B) (l : list A) f : lsumR (map h l) f = lsumR l (fun x => f (h x)).
Proof. induction l as [|x l IH]; cbn; [reflexivity|]. rewrite IH. reflexivity. Qed.
Lemma average_strings n f : average (strings (S n)) f = (average (strings n) (fun l => f (false :: l)) + average (strings n) (fun l => f (true :: l))) / 2.
Proof.
  unfold average. rewrite !strings_length. cbn [strings]. rewrite lsumR_app, !lsumR_map. cbn [pow]. field. apply pow_nonzero. lra.
Qed.
Lemma average_strings_const n x : average (strings n) (fun _ => x) = x.
Proof. induction n as [|n IH]; [unfold average; cbn; field|]. rewrite average_strings, !IH. field. Qed.
Lemma run_average {A} (c : coin A) (f : option A -> R) : forall n, within n c ->
  average (strings n) (fun bs => f (option_map fst (run c bs))) = Ex c (fun a => f (Some a)).
Proof.
  induction c as [a|k IH]; intros n W; cbn [run Ex].
  - cbn [option_map fst]. apply average_strings_const.
  - destruct n as [|n]; [destruct W|]. cbn in W. destruct W as [W1 W2]. rewrite average_strings, <- !IH with (n := n) by assumption. reflexivity.
Qed.

Lemma within_descend : forall h t, within (h - 1) (descend h t).
Proof.
  induction h as [|h IH]; intro t; [exact I|]. cbn [descend]. destruct t as [|l r]; [exact I|].
  destruct h as [|k]; [exact I|]. cbn [Nat.sub within].
  assert (X : forall t (F : dtree + N -> coin (dtree + N)), (forall x, within 0 (F x)) -> within k (cbind (descend (S k) t) F)).
  { intros t0 F HF. replace k with ((S k - 1) + 0)%nat at 1 by lia. apply within_bind; [apply IH|exact HF]. }
  split; apply X; intro; exact I.
Qed.
Lemma within_fill : forall f h t n, within (f * (h - 1)) (fill f h t n).
Proof.
  induction f as [|f IH]; intros h t n; [exact I|]. cbn [fill Nat.mul]. apply within_bind; [apply within_descend|].
  intros [t'|p]; [apply IH|exact I].
Qed.
Lemma within_trees : forall m, within (762 * m) (some_trees m).
Proof.
  induction m as [|m IH]; [exact I|]. cbn [some_trees]. replace (762 * S m)%nat with (762 + (762 * m + 0))%nat by lia. apply within_bind.
  - apply (within_le _ (127 * (7 - 1))%nat); [lia|]. apply within_fill.
  - intro r. apply within_bind; [exact IH|]. intro. exact I.
Qed.

Definition is_result (a b : option (nat * N)) : R := if result_eq_dec a b then 1 else 0.
Lemma chance_Ex L m rs : (762 * m <= L)%nat -> tree_chance L m rs = Ex (some_trees m) (fun x => if results_eqb (Some x) (Some rs) then 1 else 0).
Proof.
  intro H. unfold tree_chance, trees_of. apply (run_average (some_trees m) (fun o => if results_eqb o (Some rs) then 1 else 0)).
  apply (within_le _ (762 * m)%nat); [exact H|apply within_trees].
Qed.
Lemma Ex_trees : forall m rs, length rs = m ->
  Ex (some_trees m) (fun x => if results_eqb (Some x) (Some rs) then 1 else 0) = fold_right Rmult 1 (map (fun r => Ex one_tree (fun x => is_result x r)) rs).
Proof.
  induction m as [|m IH]; intros [|r rs] L; try discriminate L.
  - cbn. reflexivity.
  - injection L as L. cbn [some_trees map fold_right]. rewrite Ex_bind, <- Ex_scale_r. apply Ex_ext. intro a. rewrite Ex_bind. cbn [Ex].
    rewrite <- (IH rs L), <- Ex_scale. apply Ex_ext. intro l. unfold results_eqb, is_result.
    destruct (list_eq_dec result_eq_dec (a :: l) (r :: rs)) as [E|N], (result_eq_dec a r) as [E1|N1], (list_eq_dec result_eq_dec l rs) as [E2|N2]; try ring; exfalso; congruence.
Qed.
Lemma chance_one L r : (762 <= L)%nat -> tree_chance L 1 [r] = Ex one_tree (fun x => is_result x r).
Proof. intro H. rewrite chance_Ex by lia. rewrite Ex_trees by reflexivity. cbn [map fold_right]. apply Rmult_1_r. Qed.
Lemma chance_product L m rs : (762 * m <= L)%nat -> length rs = m ->
  tree_chance L m rs = fold_right Rmult 1 (map (fun r => tree_chance 762 1 [r]) rs).
Proof.
  intros H E. rewrite chance_Ex, Ex_trees by assumption. f_equal. apply map_ext. intro r. symmetry. apply chance_one. lia.
Qed.

(** ** One tree *)
Fixpoint stays (n h : nat) (t : dtree) : R :=
  match n with O => 1 | S n => Ex (descend h t) (fun x => match x with inl t => stays n h t | inr _ => 0 end) end.
Definition at_slot (p q : N) : R := if N.eq_dec p q then 1 else 0.
Fixpoint ends (n h : nat) (t : dtree) (p : N) : R :=
  match n with
  | O => Ex (descend h t) (fun x => match x with inl _ => 0 | inr q => at_slot q p end)
  | S n => Ex (descend h t) (fun x => match x with inl t => ends n h t p | inr _ => 0 end)
  end.

Lemma fill_late : forall f h t m n p, (n <= m)%nat -> Ex (fill f h t m) (fun x => is_result x (Some (n, p))) = 0.
Proof.
  induction f as [|f IH]; intros h t m n p L; cbn [fill].
  - cbn [Ex]. unfold is_result. destruct (result_eq_dec _ _); [discriminate|reflexivity].
  - rewrite Ex_bind. rewrite (Ex_ext _ _ (fun _ => 0)); [apply Ex_const|]. intros [t'|q]; [apply IH; lia|]. cbn [Ex]. unfold is_result.
    destruct (result_eq_dec _ _) as [E|]; [|reflexivity]. injection E as E _. lia.
Qed.
Lemma fill_ends : forall n f h t m p, (n < f)%nat -> Ex (fill f h t m) (fun x => is_result x (Some (m + S n, p)%nat)) = ends n h t p.
Proof.
  induction n as [|n IH]; intros f h t m p L; (destruct f as [|f]; [lia|]); cbn [fill ends]; rewrite Ex_bind; apply Ex_ext; intros [t'|q]; cbn [Ex].
  - rewrite fill_late by lia. reflexivity.
  - unfold is_result, at_slot. destruct (result_eq_dec _ _) as [E|E], (N.eq_dec q p) as [E'|E']; try reflexivity; exfalso.
    + injection E as E E2. congruence.
    + subst q. apply E. f_equal. f_equal. lia.
  - replace (m + S (S n))%nat with (S m + S n)%nat by lia. apply IH. lia.
  - unfold is_result. destruct (result_eq_dec _ _) as [E|E]; [|reflexivity]. injection E as E. lia.
Qed.

(** Binomial convolution. *)
Fixpoint binom (n k : nat) : nat :=
  match k, n with
  | O, _ => 1
  | S _, O => 0
  | S k, S n => binom n k + binom n (S k)
  end%nat.
Lemma binom_over : forall n k, (n < k)%nat -> binom n k = 0%nat.
Proof. induction n as [|n IH]; intros [|k] L; cbn; try lia. rewrite !IH by lia. reflexivity. Qed.
Definition conv (n : nat) (F G : nat -> R) : R := rsum (S n) (fun k => INR (binom n k) * (F k * G (n - k)%nat)).

Lemma rsum_first n f : rsum (S n) f = f 0%nat + rsum n (fun k => f (S k)).
Proof. induction n as [|n IH]; [cbn; ring|]. cbn [rsum] in *. rewrite IH. ring. Qed.
Lemma conv_S n F G : conv (S n) F G = conv n (fun k => F (S k)) G + conv n F (fun k => G (S k)).
Proof.
  unfold conv. rewrite (rsum_first (S n)). 
  rewrite (rsum_ext (S n) _ (fun k => INR (binom n k) * (F (S k) * G (n - k)%nat) + INR (binom n (S k)) * (F (S k) * G (n - k)%nat))).
  2: { intros k H. cbn [binom Nat.sub]. rewrite plus_INR. ring. }
  rewrite <- rsum_plus. rewrite (rsum_first n (fun k => INR (binom n k) * (F k * G (S (n - k))))).
  replace (rsum (S n) (fun k => INR (binom n (S k)) * (F (S k) * G (n - k)%nat))) with (rsum n (fun k => INR (binom n (S k)) * (F (S k) * G (S (n - S k))))).
  - cbn [binom Nat.sub]. destruct n; cbn [binom Nat.sub]; ring.
  - cbn [rsum]. rewrite (binom_over n (S n)) by lia. cbn [INR]. rewrite Rmult_0_l, Rplus_0_r. apply rsum_ext. intros k H. do 3 f_equal. lia.
Qed.
Lemma conv_ext n F G F' G' : (forall k, F k = F' k) -> (forall k, G k = G' k) -> conv n F G = conv n F' G'.
Proof. intros A B. unfold conv. apply rsum_ext. intros k _. rewrite A, B. reflexivity. Qed.
Lemma Ex_conv_l {A} (c : coin A) n F G : Ex c (fun a => conv n (F a) G) = conv n (fun k => Ex c (fun a => F a k)) G.
Proof.
  unfold conv. rewrite (Ex_rsum c (S n) (fun k a => INR (binom n k) * (F a k * G (n - k)%nat))). apply rsum_ext. intros k _. rewrite Ex_scale, Ex_scale_r. reflexivity.
Qed.
Lemma Ex_conv_r {A} (c : coin A) n F G : Ex c (fun a => conv n F (G a)) = conv n F (fun k => Ex c (fun a => G a k)).
Proof.
  unfold conv. rewrite (Ex_rsum c (S n) (fun k a => INR (binom n k) * (F k * G a (n - k)%nat))). apply rsum_ext. intros k _. rewrite Ex_scale, Ex_scale. reflexivity.
Qed.
Lemma conv_scale_l n F G x : conv n (fun k => x * F k) G = x * conv n F G.
Proof. unfold conv. rewrite rsum_scale. apply rsum_ext. intros. ring. Qed.

Lemma stays_conv : forall n h l r, stays n (S (S h)) (Marked l r) = conv n (fun k => stays k (S h) l) (fun k => stays k (S h) r) / 2 ^ n.
Proof.
  induction n as [|n IH]; intros h l r; [cbn; field|].
  cbn [stays]. change (descend (S (S h)) (Marked l r)) with (Flip (fun b : bool =>
          if b then cbind (descend (S h) r) (fun x => Ret (match x with inl r => inl (Marked l r) | inr p => inr (2 ^ N.of_nat h + p)%N end))
          else cbind (descend (S h) l) (fun x => Ret (match x with inl l => inl (Marked l r) | inr p => inr p end)))).
  cbn [Ex]. rewrite !Ex_bind. cbn [Ex].
  rewrite (Ex_ext (descend (S h) l) _ (fun x => / 2 ^ n * conv n (fun k => match x with inl l => stays k (S h) l | inr _ => 0 end) (fun k => stays k (S h) r))).
  2: { intros [l'|p]; [rewrite IH; field; apply pow_nonzero; lra|]. unfold conv. rewrite (rsum_ext _ _ (fun _ => 0)) by (intros; ring). rewrite rsum_const. ring. }
  rewrite (Ex_ext (descend (S h) r) _ (fun x => / 2 ^ n * conv n (fun k => stays k (S h) l) (fun k => match x with inl l => stays k (S h) l | inr _ => 0 end))).
  2: { intros [l'|p]; [rewrite IH; field; apply pow_nonzero; lra|]. unfold conv. rewrite (rsum_ext _ _ (fun _ => 0)) by (intros; ring). rewrite rsum_const. ring. }
  rewrite !Ex_scale, Ex_conv_l, Ex_conv_r, conv_S. cbn [pow]. cbn [stays]. field. apply pow_nonzero. lra.
Qed.

(** ** Where a tree ends *)
Lemma conv_comm : forall n F G, conv n F G = conv n G F.
Proof. induction n as [|n IH]; intros F G; [unfold conv; cbn; ring|]. rewrite !conv_S, (IH (fun k => F (S k))), (IH F). ring. Qed.

Fixpoint sure {A} (P : A -> Prop) (c : coin A) : Prop :=
  match c with Ret a => P a | Flip k => sure P (k false) /\ sure P (k true) end.
Lemma sure_bind {A B} (P : A -> Prop) (Q : B -> Prop) (c : coin A) (k : A -> coin B) : sure P c -> (forall a, P a -> sure Q (k a)) -> sure Q (cbind c k).
Proof. intros S1 K. induction c as [a|f IH]; cbn in *; [apply K, S1|]. destruct S1. split; apply IH; assumption. Qed.
Lemma Ex_sure {A} (P : A -> Prop) (c : coin A) f g : sure P c -> (forall a, P a -> f a = g a) -> Ex c f = Ex c g.
Proof. intros S1 H. induction c as [a|k IH]; cbn in *; [apply H, S1|]. destruct S1. rewrite !IH by assumption. reflexivity. Qed.
Definition slot_below (h : nat) (x : dtree + N) : Prop := match x with inl _ => True | inr p => (p < 2 ^ N.of_nat h)%N end.
Lemma descend_slots : forall h t, sure (slot_below h) (descend (S h) t).
Proof.
  induction h as [|h IH]; intros [|l r]; try exact I.
  - cbn. reflexivity.
  - change (sure (slot_below (S h)) (cbind (descend (S h) l) (fun x => Ret (match x with inl l => inl (Marked l r) | inr p => inr p end))) /\
      sure (slot_below (S h)) (cbind (descend (S h) r) (fun x => Ret (match x with inl r => inl (Marked l r) | inr p => inr (2 ^ N.of_nat h + p)%N end)))).
    assert (P2 : (2 ^ N.of_nat (S h) = 2 * 2 ^ N.of_nat h)%N) by (rewrite Nat2N.inj_succ, N.pow_succ_r'; reflexivity).
    split; (apply (sure_bind (slot_below h)); [apply IH|]); intros [t'|p] H; cbn [sure slot_below] in *; try exact I; lia.
Qed.

Lemma descend_marked h l r : descend (S (S h)) (Marked l r) = Flip (fun b : bool =>
          if b then cbind (descend (S h) r) (fun x => Ret (match x with inl r => inl (Marked l r) | inr p => inr (2 ^ N.of_nat h + p)%N end))
          else cbind (descend (S h) l) (fun x => Ret (match x with inl l => inl (Marked l r) | inr p => inr p end))).
Proof. reflexivity. Qed.

Lemma conv_zero_l n G : conv n (fun _ => 0) G = 0.
Proof. unfold conv. rewrite (rsum_ext _ _ (fun _ => 0)) by (intros; ring). apply rsum_zero. Qed.
Lemma ends_left : forall n h l r p, (p < 2 ^ N.of_nat h)%N ->
  ends n (S (S h)) (Marked l r) p = conv n (fun k => ends k (S h) l p) (fun k => stays k (S h) r) / 2 ^ S n.
Proof.
  induction n as [|n IH]; intros h l r p L.
  - cbn [ends]. rewrite descend_marked. cbn [Ex]. rewrite !Ex_bind. cbn [Ex].
    rewrite (Ex_ext (descend (S h) r) _ (fun _ => 0)).
    2: { intros [t|q]; [reflexivity|]. unfold at_slot. destruct (N.eq_dec _ _); [lia|reflexivity]. }
    rewrite Ex_const. unfold conv. cbn [rsum binom Nat.sub stays INR pow ends].
    rewrite (Ex_ext (descend (S h) l) _ (fun x => match x with inl _ => 0 | inr q => at_slot q p end)) by (intros [t|q]; reflexivity). field.
  - cbn [ends]. rewrite descend_marked. cbn [Ex]. rewrite !Ex_bind. cbn [Ex].
    rewrite (Ex_ext (descend (S h) l) _ (fun x => / 2 ^ S n * conv n (fun k => match x with inl l => ends k (S h) l p | inr _ => 0 end) (fun k => stays k (S h) r))).
    2: { intros [l'|q]; [rewrite IH by exact L; unfold Rdiv; ring|]. rewrite conv_zero_l. ring. }
    rewrite (Ex_ext (descend (S h) r) _ (fun x => / 2 ^ S n * conv n (fun k => ends k (S h) l p) (fun k => match x with inl l => stays k (S h) l | inr _ => 0 end))).
    2: { intros [l'|q]; [rewrite IH by exact L; unfold Rdiv; ring|]. rewrite conv_comm, conv_zero_l. ring. }
    rewrite !Ex_scale, Ex_conv_l, Ex_conv_r, conv_S. cbn [pow]. cbn [ends stays]. field. apply pow_nonzero. lra.
Qed.
Lemma ends_right : forall n h l r p, (p < 2 ^ N.of_nat h)%N ->
  ends n (S (S h)) (Marked l r) (2 ^ N.of_nat h + p)%N = conv n (fun k => ends k (S h) r p) (fun k => stays k (S h) l) / 2 ^ S n.
Proof.
  induction n as [|n IH]; intros h l r p L.
  - cbn [ends]. rewrite descend_marked. cbn [Ex]. rewrite !Ex_bind. cbn [Ex].
    rewrite (Ex_sure (slot_below h) (descend (S h) l) _ (fun _ => 0) (descend_slots h l)).
    2: { intros [t|q] Q; [reflexivity|]. cbn in Q. unfold at_slot. destruct (N.eq_dec _ _); [lia|reflexivity]. }
    rewrite Ex_const. unfold conv. cbn [rsum binom Nat.sub stays INR pow ends].
    rewrite (Ex_ext (descend (S h) r) _ (fun x => match x with inl _ => 0 | inr q => at_slot q p end)).
    2: { intros [t|q]; [reflexivity|]. unfold at_slot. destruct (N.eq_dec _ _), (N.eq_dec q p); try reflexivity; exfalso; lia. }
    field.
  - cbn [ends]. rewrite descend_marked. cbn [Ex]. rewrite !Ex_bind. cbn [Ex].
    rewrite (Ex_ext (descend (S h) r) _ (fun x => / 2 ^ S n * conv n (fun k => match x with inl l => ends k (S h) l p | inr _ => 0 end) (fun k => stays k (S h) l))).
    2: { intros [l'|q]; [rewrite IH by exact L; unfold Rdiv; ring|]. rewrite conv_zero_l. ring. }
    rewrite (Ex_ext (descend (S h) l) _ (fun x => / 2 ^ S n * conv n (fun k => ends k (S h) r p) (fun k => match x with inl l => stays k (S h) l | inr _ => 0 end))).
    2: { intros [l'|q]; [rewrite IH by exact L; unfold Rdiv; ring|]. rewrite conv_comm, conv_zero_l. ring. }
    rewrite !Ex_scale, Ex_conv_l, Ex_conv_r, conv_S. cbn [pow]. cbn [ends stays]. field. apply pow_nonzero. lra.
Qed.
Lemma slot_cases h p : (p < 2 ^ N.of_nat (S h))%N -> (p < 2 ^ N.of_nat h)%N \/ exists q, (q < 2 ^ N.of_nat h)%N /\ p = (2 ^ N.of_nat h + q)%N.
Proof.
  intro H. rewrite Nat2N.inj_succ, N.pow_succ_r' in H. destruct (N.ltb_spec p (2 ^ N.of_nat h)) as [L|L]; [left; exact L|right].
  exists (p - 2 ^ N.of_nat h)%N. lia.
Qed.
Lemma ends_marked n h p q : (forall n p q, (p < 2 ^ N.of_nat h)%N -> (q < 2 ^ N.of_nat h)%N -> ends n (S h) Blank p = ends n (S h) Blank q) ->
  (p < 2 ^ N.of_nat (S h))%N -> (q < 2 ^ N.of_nat (S h))%N -> ends n (S (S h)) (Marked Blank Blank) p = ends n (S (S h)) (Marked Blank Blank) q.
Proof.
  intros U P Q.
  assert (X : forall p, (p < 2 ^ N.of_nat (S h))%N -> ends n (S (S h)) (Marked Blank Blank) p = conv n (fun k => ends k (S h) Blank 0) (fun k => stays k (S h) Blank) / 2 ^ S n).
  { assert (Z0 : (0 < 2 ^ N.of_nat h)%N) by (apply N.neq_0_lt_0, N.pow_nonzero; discriminate).
    intros s B. apply slot_cases in B. destruct B as [B|(t & B & ->)]; [rewrite ends_left by exact B|rewrite ends_right by exact B];
    f_equal; apply conv_ext; try reflexivity; intro; apply U; assumption. }
  rewrite !X by assumption. reflexivity.
Qed.
Lemma ends_uniform : forall h n p q, (p < 2 ^ N.of_nat h)%N -> (q < 2 ^ N.of_nat h)%N -> ends n (S h) Blank p = ends n (S h) Blank q.
Proof.
  induction h as [|h IH]; intros n p q P Q.
  - cbn in P, Q. replace p with 0%N by lia. replace q with 0%N by lia. reflexivity.
  - destruct n as [|n]; [reflexivity|]. change (ends n (S (S h)) (Marked Blank Blank) p = ends n (S (S h)) (Marked Blank Blank) q).
    apply ends_marked; auto.
Qed.
Lemma rsum_slot n p : (p < N.of_nat n)%N -> rsum n (fun k => at_slot p (N.of_nat k)) = 1.
Proof.
  intro H. rewrite (rsum_single n _ (N.to_nat p)); [|lia|].
  - unfold at_slot. destruct (N.eq_dec _ _); [reflexivity|lia].
  - intros j L N. unfold at_slot. destruct (N.eq_dec _ _); [lia|reflexivity].
Qed.
Lemma ends_sum : forall n h t m, (2 ^ N.of_nat h = N.of_nat m)%N -> rsum m (fun p => ends n (S h) t (N.of_nat p)) = stays n (S h) t - stays (S n) (S h) t.
Proof.
  induction n as [|n IH]; intros h t m E.
  - cbn [ends]. rewrite <- (Ex_rsum (descend (S h) t) m (fun p x => match x with inl _ => 0 | inr q => at_slot q (N.of_nat p) end)).
    cbn [stays]. transitivity (Ex (descend (S h) t) (fun _ => 1) - Ex (descend (S h) t) (fun x => match x with inl _ => 1 | inr _ => 0 end)); [|rewrite Ex_const; reflexivity]. rewrite <- Ex_minus.
    apply (Ex_sure (slot_below h)); [apply descend_slots|]. intros [t'|q] L; [rewrite rsum_zero; ring|]. cbn in L. rewrite rsum_slot by lia. ring.
  - cbn [ends]. rewrite <- (Ex_rsum (descend (S h) t) m (fun p x => match x with inl t => ends n (S h) t (N.of_nat p) | inr _ => 0 end)).
    change (stays (S n) (S h) t) with (Ex (descend (S h) t) (fun x => match x with inl t => stays n (S h) t | inr _ => 0 end)).
    change (stays (S (S n)) (S h) t) with (Ex (descend (S h) t) (fun x => match x with inl t => stays (S n) (S h) t | inr _ => 0 end)).
    rewrite <- Ex_minus. apply Ex_ext. intros [t'|q]; [apply IH; exact E|]. rewrite rsum_zero. ring.
Qed.
