(** Averages over all orders of a list. *)
From Coq Require Import List Arith Lia Lra Reals Permutation.
From Verif Require Import OpermReal RunsArcs TreeOrderSpec.
Import ListNotations.
Open Scope R_scope.

Section Orders.
Context {A : Type}.
Fixpoint picks (l : list A) : list (A * list A) :=
  match l with [] => [] | x :: l => (x, l) :: map (fun yr => (fst yr, x :: snd yr)) (picks l) end.
Fixpoint orders (n : nat) (xs : list A) : list (list A) :=
  match n with O => [[]] | S n => flat_map (fun yr => map (cons (fst yr)) (orders n (snd yr))) (picks xs) end.
Fixpoint oavg (n : nat) (xs : list A) (f : list A -> R) : R :=
  match n with O => f [] | S n => lsumR (picks xs) (fun yr => oavg n (snd yr) (fun ys => f (fst yr :: ys))) / INR (S n) end.

Lemma lsumR_map {B C} (h : B -> C) l f : lsumR (map h l) f = lsumR l (fun x => f (h x)).
Proof. induction l as [|x l IH]; [reflexivity|]. cbn [map lsumR]. now rewrite IH. Qed.
Lemma lsumR_app {B} (l m : list B) f : lsumR (l ++ m) f = lsumR l f + lsumR m f.
Proof. induction l as [|x l IH]; cbn [app lsumR]; [lra|]. rewrite IH. lra. Qed.
Lemma lsumR_flat {B C} (h : B -> list C) l f : lsumR (flat_map h l) f = lsumR l (fun x => lsumR (h x) f).
Proof. induction l as [|x l IH]; [reflexivity|]. cbn [flat_map lsumR]. now rewrite lsumR_app, IH. Qed.
Lemma lsumR_perm {B} (l m : list B) f : Permutation l m -> lsumR l f = lsumR m f.
Proof. induction 1; cbn [lsumR]; lra. Qed.
Lemma lsumR_const {B} (l : list B) c : lsumR l (fun _ => c) = INR (length l) * c.
Proof. induction l as [|x l IH]; cbn [length lsumR]; [cbn; lra|]. rewrite IH, S_INR. lra. Qed.

Lemma picks_length l : length (picks l) = length l.
Proof. induction l as [|x l IH]; [reflexivity|]. cbn [picks length]. now rewrite map_length, IH. Qed.
Lemma picks_perm l y r : In (y, r) (picks l) -> Permutation l (y :: r).
Proof.
  revert y r. induction l as [|x l IH]; intros y r H; [destruct H|]. cbn [picks] in H. destruct H as [H|H]; [injection H as -> ->; reflexivity|].
  apply in_map_iff in H. destruct H as ((z & s) & E & H). cbn [fst snd] in E. injection E as -> <-. rewrite (IH _ _ H). apply perm_swap.
Qed.
Lemma picks_size l y r : In (y, r) (picks l) -> S (length r) = length l.
Proof. intro H. apply picks_perm, Permutation_length in H. cbn in H. lia. Qed.
Lemma picks_in l x : In x l -> exists r, In (x, r) (picks l).
Proof.
  induction l as [|y l IH]; intro H; [destruct H|]. destruct H as [->|H]; [exists l; now left|]. destruct (IH H) as (r & I). exists (y :: r). right. apply in_map_iff. now exists (x, r).
Qed.
Lemma picks_fst l : map fst (picks l) = l.
Proof. induction l as [|x l IH]; [reflexivity|]. cbn [picks map fst]. f_equal. rewrite map_map. exact IH. Qed.

Lemma orders_length n : forall xs, length xs = n -> length (orders n xs) = fact n.
Proof.
  induction n as [|n IH]; intros xs L; [reflexivity|]. cbn [orders]. rewrite flat_map_concat_map.
  assert (G : forall l : list (A * list A), (forall yr, In yr l -> length (snd yr) = n) -> length (concat (map (fun yr => map (cons (fst yr)) (orders n (snd yr))) l)) = (length l * fact n)%nat).
  { induction l as [|a l IHl]; intro H; [reflexivity|]. cbn [map concat length]. rewrite app_length, map_length, IH by (apply H; now left). rewrite IHl by (intros; apply H; now right). reflexivity. }
  rewrite G; [rewrite picks_length, L; reflexivity|]. intros (y & r) I. apply picks_size in I. cbn. lia.
Qed.
Lemma oavg_orders n : forall xs f, length xs = n -> oavg n xs f = average (orders n xs) f.
Proof.
  induction n as [|n IH]; intros xs f L; unfold average.
  { cbn. lra. }
  rewrite orders_length by exact L. cbn [oavg orders]. rewrite lsumR_flat.
  rewrite (lsumR_ext (picks xs) _ (fun yr => / INR (fact n) * lsumR (map (cons (fst yr)) (orders n (snd yr))) f)).
  - rewrite lsumR_scale. change (fact (S n)) with (S n * fact n)%nat. rewrite mult_INR. unfold Rdiv. rewrite Rinv_mult. ring.
  - intros (y & r) I. cbn [fst snd]. apply picks_size in I. rewrite IH by lia. unfold average. rewrite orders_length by lia. rewrite lsumR_map. unfold Rdiv. ring.
Qed.
Lemma orders_in n : forall xs ys, length xs = n -> In ys (orders n xs) <-> Permutation xs ys.
Proof.
  induction n as [|n IH]; intros xs ys L; cbn [orders].
  - destruct xs; [|discriminate]. split; [intros [<-|[]]; constructor|]. intro P. apply Permutation_nil in P. subst. now left.
  - rewrite in_flat_map. split.
    + intros ((y & r) & I & J). cbn [fst snd] in J. apply in_map_iff in J. destruct J as (zs & <- & J). pose proof (picks_size _ _ _ I). apply IH in J; [|lia]. rewrite (picks_perm _ _ _ I). now constructor.
    + intro P. destruct ys as [|y ys]; [apply Permutation_sym, Permutation_nil in P; subst; discriminate|].
      destruct (picks_in xs y) as (r & I); [apply (Permutation_in y (Permutation_sym P)); now left|]. exists (y, r). split; [exact I|]. cbn [fst snd]. apply in_map_iff. exists ys. split; [reflexivity|].
      apply IH; [apply picks_size in I; lia|]. apply (Permutation_cons_inv (a := y)). rewrite <- (picks_perm _ _ _ I). exact P.
Qed.
Lemma NoDup_app' {B} (l m : list B) : NoDup l -> NoDup m -> (forall x, In x l -> ~ In x m) -> NoDup (l ++ m).
Proof.
  induction l as [|x l IH]; intros HL HM D; [exact HM|]. inversion HL; subst. cbn. constructor.
  - intro I. apply in_app_or in I. destruct I as [I|I]; [contradiction|]. apply (D x); [now left|exact I].
  - apply IH; auto. intros y Y. apply D. now right.
Qed.
Lemma orders_nodup n : forall xs, NoDup xs -> length xs = n -> NoDup (orders n xs).
Proof.
  induction n as [|n IH]; intros xs N L; cbn [orders]; [repeat constructor; intros []|].
  assert (G : forall l : list (A * list A), NoDup (map fst l) -> (forall yr, In yr l -> NoDup (snd yr) /\ length (snd yr) = n) -> NoDup (flat_map (fun yr => map (cons (fst yr)) (orders n (snd yr))) l)).
  { induction l as [|[y r] l IHl]; intros D H; [constructor|]. cbn [flat_map map fst snd] in *. inversion D as [|? ? D1 D2]; subst.
    apply NoDup_app'.
    - apply FinFun.Injective_map_NoDup; [intros a b E; now injection E|]. destruct (H (y, r) (or_introl eq_refl)). apply IH; assumption.
    - apply IHl; [exact D2|]. intros; apply H; now right.
    - intros zs Z1 Z2. apply in_map_iff in Z1. destruct Z1 as (u & <- & _). apply in_flat_map in Z2. destruct Z2 as ((y' & r') & I & J). cbn [fst snd] in J. apply in_map_iff in J. destruct J as (v & E & _). injection E as -> _.
      apply D1. change y with (fst (y, r')). now apply in_map. }
  apply G; [rewrite picks_fst; exact N|]. intros (y & r) I. cbn. pose proof (picks_size _ _ _ I). split; [|lia]. apply (Permutation_NoDup (picks_perm _ _ _ I)) in N. now inversion N.
Qed.
(** any list of all orders will do *)
Lemma all_orders_avg xs all f : NoDup xs -> all_orders xs all -> average all f = oavg (length xs) xs f.
Proof.
  intros N [D H]. rewrite oavg_orders by reflexivity.
  assert (P : Permutation all (orders (length xs) xs)) by (apply NoDup_Permutation; [exact D|apply orders_nodup; auto|]; intro ys; rewrite H, orders_in by reflexivity; reflexivity).
  unfold average. rewrite (lsumR_perm _ _ f P), (Permutation_length P). reflexivity.
Qed.
Lemma orders_all xs : NoDup xs -> all_orders xs (orders (length xs) xs).
Proof. intro N. split; [apply orders_nodup; auto|]. intro. now apply orders_in. Qed.

Lemma oavg_ext n : forall xs f g, length xs = n -> (forall ys, Permutation xs ys -> f ys = g ys) -> oavg n xs f = oavg n xs g.
Proof.
  intros xs f g L H. rewrite !oavg_orders by exact L. apply average_ext. intros ys I. apply H. now apply orders_in in I.
Qed.
Lemma oavg_scale n xs c f : length xs = n -> oavg n xs (fun ys => c * f ys) = c * oavg n xs f.
Proof. intro L. rewrite !oavg_orders by exact L. apply average_scale. Qed.
Lemma oavg_plus n xs f g : length xs = n -> oavg n xs (fun ys => f ys + g ys) = oavg n xs f + oavg n xs g.
Proof. intro L. rewrite !oavg_orders by exact L. apply average_plus. Qed.
Lemma oavg_const n xs c : length xs = n -> oavg n xs (fun _ => c) = c.
Proof.
  intro L. rewrite oavg_orders by exact L. unfold average. rewrite lsumR_const, orders_length by exact L. field. apply INR_fact_neq_0.
Qed.
Lemma oavg_rsum n xs k f : length xs = n -> oavg n xs (fun ys => rsum k (f ys)) = rsum k (fun i => oavg n xs (fun ys => f ys i)).
Proof. intro L. rewrite oavg_orders by exact L. rewrite average_rsum. apply rsum_ext. intros i _. now rewrite oavg_orders by exact L. Qed.

(** the last element, like the first, is any with equal chances *)
Lemma picks_swap l (F : A -> A -> list A -> R) :
  lsumR (picks l) (fun xr => lsumR (picks (snd xr)) (fun ys => F (fst xr) (fst ys) (snd ys))) =
  lsumR (picks l) (fun xr => lsumR (picks (snd xr)) (fun ys => F (fst ys) (fst xr) (snd ys))).
Proof.
  revert F. induction l as [|a l IH]; intro F; [reflexivity|]. cbn [picks lsumR fst snd]. rewrite !lsumR_map. cbn [fst snd picks lsumR].
  rewrite !lsumR_plus.
  rewrite (lsumR_ext (picks l) (fun x => lsumR (map _ _) _) (fun x => lsumR (picks (snd x)) (fun ys => F (fst x) (fst ys) (a :: snd ys)))) by (intros; now rewrite lsumR_map).
  rewrite (lsumR_ext (picks l) (fun x => lsumR (map (fun yr => (fst yr, a :: snd yr)) (picks (snd x))) (fun ys => F (fst ys) (fst x) (snd ys))) (fun x => lsumR (picks (snd x)) (fun ys => F (fst ys) (fst x) (a :: snd ys)))) by (intros; now rewrite lsumR_map).
  rewrite (IH (fun x y s => F x y (a :: s))). lra.
Qed.
Lemma oavg_last n : forall xs f, length xs = S n ->
  oavg (S n) xs f = lsumR (picks xs) (fun yr => oavg n (snd yr) (fun ys => f (ys ++ [fst yr]))) / INR (S n).
Proof.
  induction n as [|n IH]; intros xs f L; [reflexivity|].
  change (oavg (S (S n)) xs f) with (lsumR (picks xs) (fun yr => oavg (S n) (snd yr) (fun ys => f (fst yr :: ys))) / INR (S (S n))). f_equal.
  rewrite (lsumR_ext (picks xs) _ (fun xr => / INR (S n) * lsumR (picks (snd xr)) (fun ys => oavg n (snd ys) (fun zs => f (fst xr :: zs ++ [fst ys]))))).
  2:{ intros (x & r) I. cbn [fst snd]. apply picks_size in I. rewrite IH by lia. unfold Rdiv. rewrite Rmult_comm. reflexivity. }
  rewrite lsumR_scale. rewrite (picks_swap xs (fun x y s => oavg n s (fun zs => f (x :: zs ++ [y])))). rewrite <- lsumR_scale. apply lsumR_ext. intros (x & r) I. cbn [fst snd oavg app]. unfold Rdiv. rewrite Rmult_comm. reflexivity.
Qed.

(** the parts of an order in two classes are independent *)
Section Classes.
Variable c : A -> bool.
Let d x := negb (c x).
Lemma picks_class l (F : A -> list A -> R) :
  lsumR (picks l) (fun yr => if c (fst yr) then F (fst yr) (filter c (snd yr)) else 0) = lsumR (picks (filter c l)) (fun yr => F (fst yr) (snd yr)).
Proof.
  revert F. induction l as [|a l IH]; intro F; [reflexivity|]. cbn [picks lsumR fst snd filter]. rewrite lsumR_map. cbn [fst snd filter].
  destruct (c a) eqn:E.
  - cbn [picks lsumR fst snd]. rewrite lsumR_map. cbn [fst snd]. rewrite (IH (fun x r => F x (a :: r))). reflexivity.
  - rewrite IH. lra.
Qed.
Lemma pick_other l y r : In (y, r) (picks l) -> c y = true -> filter d r = filter d l.
Proof.
  revert y r. induction l as [|a l IH]; intros y r I C; [destruct I|]. cbn [picks] in I. destruct I as [I|I].
  - injection I as -> ->. cbn [filter]. unfold d at 2. now rewrite C.
  - apply in_map_iff in I. destruct I as ((z & s) & E & I). cbn [fst snd] in E. injection E as -> <-. cbn [filter]. now rewrite (IH _ _ I C).
Qed.
End Classes.
Lemma filter_total (c : A -> bool) l : (length (filter c l) + length (filter (fun x => negb (c x)) l) = length l)%nat.
Proof. induction l as [|a l IH]; [reflexivity|]. cbn [filter]. destruct (c a); cbn [negb length]; lia. Qed.
Lemma filter_neg2 (c : A -> bool) l : filter (fun x => negb (negb (c x))) l = filter c l.
Proof. apply filter_ext. intro. apply Bool.negb_involutive. Qed.

Lemma oavg_part n m xs f (g : list A -> R) : n = S m -> lsumR (picks xs) (fun yr => oavg m (snd yr) (fun ys => f (fst yr :: ys))) = INR n * oavg n xs f.
Proof. intros ->. cbn [oavg]. field. apply not_0_INR. lia. Qed.
Lemma oavg_classes n : forall (c : A -> bool) xs f g, length xs = n ->
  oavg n xs (fun ys => f (filter c ys) * g (filter (fun x => negb (c x)) ys)) =
  oavg (length (filter c xs)) (filter c xs) f * oavg (length (filter (fun x => negb (c x)) xs)) (filter (fun x => negb (c x)) xs) g.
Proof.
  induction n as [|n IH]; intros c xs f g L; [destruct xs; [|discriminate]; reflexivity|].
  set (d := fun x => negb (c x)). pose proof (filter_total c xs) as T. fold d in T.
  set (F := oavg (length (filter c xs)) (filter c xs) f). set (G := oavg (length (filter d xs)) (filter d xs) g).
  cbn [oavg].
  rewrite (lsumR_ext (picks xs) _ (fun yr =>
     (if c (fst yr) then G * oavg (length (filter c (snd yr))) (filter c (snd yr)) (fun ys => f (fst yr :: ys)) else 0) +
     (if d (fst yr) then F * oavg (length (filter d (snd yr))) (filter d (snd yr)) (fun ys => g (fst yr :: ys)) else 0))).
  - rewrite lsumR_plus.
    rewrite (picks_class c xs (fun y r => G * oavg (length r) r (fun ys => f (y :: ys)))).
    rewrite (picks_class d xs (fun y r => F * oavg (length r) r (fun ys => g (y :: ys)))).
    assert (H : forall l (h : list A -> R) K, lsumR (picks l) (fun yr => K * oavg (length (snd yr)) (snd yr) (fun ys => h (fst yr :: ys))) = K * (INR (length l) * oavg (length l) l h)).
    { intros l h K. rewrite lsumR_scale. f_equal. destruct l as [|a l]; [cbn; ring|]. cbn [length]. rewrite <- (oavg_part (S (length l)) (length l) (a :: l) h h eq_refl). apply lsumR_ext. intros (y & r) I. apply picks_size in I. cbn [fst snd length] in *. now replace (length r) with (length l) by lia. }
    rewrite !H. fold F G. replace (INR (length (filter c xs)) ) with (INR (S n) - INR (length (filter d xs))) by (rewrite <- L, <- T, plus_INR; ring). field. apply not_0_INR. lia.
  - intros (y & r) I. cbn [fst snd filter]. pose proof (picks_size _ _ _ I) as LR. destruct (c y) eqn:E; [assert (E2 : d y = false) by (unfold d; now rewrite E)|assert (E2 : d y = true) by (unfold d; now rewrite E)]; rewrite E2.
    + pose proof (IH c r (fun l => f (y :: l)) g ltac:(lia)) as Q. cbv beta in Q. fold d in Q. rewrite Q. pose proof (pick_other c xs y r I E) as W. fold d in W. rewrite W. fold G. ring.
    + pose proof (IH c r f (fun l => g (y :: l)) ltac:(lia)) as W. cbv beta in W. fold d in W. rewrite W.
      pose proof (pick_other d xs y r I ltac:(unfold d; now rewrite E)) as Q. unfold d in Q. rewrite !filter_neg2 in Q. rewrite Q. fold F. ring.
Qed.
Definition last_in (c : A -> bool) (ys : list A) : bool := match rev ys with [] => false | y :: _ => c y end.
Lemma last_in_snoc c ys y : last_in c (ys ++ [y]) = c y.
Proof. unfold last_in. now rewrite rev_app_distr. Qed.
(** and so is the class of the last one *)
Lemma oavg_classes_last n : forall (c : A -> bool) xs f g, length xs = S n ->
  oavg (S n) xs (fun ys => if last_in c ys then f (filter c ys) * g (filter (fun x => negb (c x)) ys) else 0) =
  INR (length (filter c xs)) / INR (S n) * (oavg (length (filter c xs)) (filter c xs) f * oavg (length (filter (fun x => negb (c x)) xs)) (filter (fun x => negb (c x)) xs) g).
Proof.
  intros c xs f g L. set (d := fun x => negb (c x)). rewrite oavg_last by exact L.
  set (G := oavg (length (filter d xs)) (filter d xs) g).
  rewrite (lsumR_ext (picks xs) _ (fun yr => if c (fst yr) then G * oavg (length (filter c (snd yr))) (filter c (snd yr)) (fun ys => f (ys ++ [fst yr])) else 0)).
  - rewrite (picks_class c xs (fun y r => G * oavg (length r) r (fun ys => f (ys ++ [y])))). rewrite lsumR_scale.
    destruct (filter c xs) as [|a l] eqn:E; [cbn; unfold Rdiv; ring|]. cbn [length].
    rewrite (oavg_last (length l) (a :: l) f eq_refl).
    rewrite (lsumR_ext (picks (a :: l)) _ (fun yr => oavg (length l) (snd yr) (fun ys => f (ys ++ [fst yr])))) by (intros (y & r) I; apply picks_size in I; cbn [fst snd length] in *; now replace (length r) with (length l) by lia).
    field. split; apply not_0_INR; lia.
  - intros (y & r) I. cbn [fst snd]. pose proof (picks_size _ _ _ I) as LR. destruct (c y) eqn:E.
    + rewrite (oavg_ext n r _ (fun ys => f (filter c ys ++ [y]) * g (filter d ys))).
      * pose proof (oavg_classes n c r (fun l => f (l ++ [y])) g ltac:(lia)) as V. cbv beta in V. fold d in V. rewrite V. pose proof (pick_other c xs y r I E) as W. fold d in W. rewrite W. fold G. ring.
      * lia.
      * intros ys _. rewrite last_in_snoc, E, !filter_app. cbn [filter]. unfold d at 2. rewrite E. cbn [negb]. now rewrite app_nil_r.
    + rewrite (oavg_ext n r _ (fun _ => 0)); [apply oavg_const; lia|lia|]. intros ys _. now rewrite last_in_snoc, E.
Qed.

(** a property of the first k of them *)
Lemma oavg_first (c : R) (f : list A -> R) k : (forall xs, NoDup xs -> length xs = k -> oavg k xs f = c) ->
  forall m xs, NoDup xs -> length xs = (k + m)%nat -> oavg (k + m) xs (fun ys => f (firstn k ys)) = c.
Proof.
  intro H. induction m as [|m IH]; intros xs N L.
  - rewrite Nat.add_0_r in *. rewrite (oavg_ext k xs _ f L); [auto|]. intros ys P. rewrite firstn_all2; [reflexivity|]. apply Permutation_length in P. lia.
  - replace (k + S m)%nat with (S (k + m)) in * by lia. rewrite oavg_last by exact L.
    rewrite (lsumR_ext (picks xs) _ (fun _ => c)).
    + rewrite lsumR_const, picks_length, L. field. apply not_0_INR. lia.
    + intros (y & r) I. cbn [fst snd]. pose proof (picks_size _ _ _ I) as LR. rewrite (oavg_ext (k + m) r _ (fun ys => f (firstn k ys))).
      * apply IH; [|lia]. apply (Permutation_NoDup (picks_perm _ _ _ I)) in N. now inversion N.
      * lia.
      * intros ys P. rewrite firstn_app. apply Permutation_length in P. replace (k - length ys)%nat with 0%nat by lia. now rewrite firstn_O, app_nil_r.
Qed.
End Orders.
