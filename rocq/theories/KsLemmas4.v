(** The matrix H and the closing loop of the Kolmogorov-Smirnov test, for any arithmetic. *)
From Coq Require Import ZArith Lia List Bool.
From Verif Require Import KsModel BaseLemmas KsLemmas3.
Import ListNotations.
Open Scope Z_scope.

Section Fill.
Variable A : arith.
Notation T := (num A).
Notation d := (nint A 0).
Variables (m : nat) (h : T).
Hypothesis M : (0 < m)%nat.
Definition ent (C : list T) (a b : nat) : T := nth (a * m + b) C d.
Lemma index_inj a b c e : (b < m)%nat -> (e < m)%nat -> (a * m + b = c * m + e)%nat -> a = c /\ b = e.
Proof. intros B E H. assert (a = c) by nia. subst. lia. Qed.
Lemma ent_set C c e v a b : length C = (m * m)%nat -> (a < m)%nat -> (b < m)%nat -> (c < m)%nat -> (e < m)%nat ->
  ent (set_nth C (c * m + e) v) a b = if ((a =? c) && (b =? e))%nat then v else ent C a b.
Proof.
  intros L Ha Hb Hc He. unfold ent. destruct (Nat.eqb_spec a c) as [->|Na]; [destruct (Nat.eqb_spec b e) as [->|Nb]|]; cbn [andb].
  - apply nth_set_nth_eq. rewrite L. nia.
  - apply nth_set_nth_ne. intro E. symmetry in E. apply index_inj in E; auto. lia.
  - apply nth_set_nth_ne. intro E. symmetry in E. apply index_inj in E; auto. lia.
Qed.

Definition sub_if (c : bool) (p x : T) : T := if c then nsub A x p else x.
(** entry (a,b) after [i] rounds of the second loop *)
Definition stage (i a b : nat) : T :=
  sub_if ((b =? 0) && (a <? i))%nat (npow A h (Z.of_nat a + 1))
    (sub_if ((a =? m - 1) && (b <? i))%nat (npow A h (Z.of_nat m - Z.of_nat b))
       (if (a + 1 <? b)%nat then nint A 0 else nint A 1)).
(** the corner *)
Definition corner : T := if ngt A (nsub A (nmul A (nint A 2) h) (nint A 1)) (nint A 0)
  then npow A (nsub A (nmul A (nint A 2) h) (nint A 1)) (Z.of_nat m) else nint A 0.
Fixpoint divs (n : nat) (x : T) : T := match n with O => x | S n => ndiv A (divs n x) (nint A (Z.of_nat (S n))) end.
Definition H_entry (a b : nat) : T :=
  divs (a + 1 - b) (if ((a =? m - 1) && (b =? 0))%nat then nadd A (stage m a b) corner else stage m a b).

Local Ltac fin := rewrite ?Nat.eqb_refl, ?andb_false_r; cbn [andb sub_if]; reflexivity.
Lemma fill_H_ok : exists H, fill_H A m h = Ok H /\ length H = (m * m)%nat /\
  forall a b, (a < m)%nat -> (b < m)%nat -> ent H a b = H_entry a b.
Proof.
  unfold fill_H. cbn zeta.
  destruct (grid_loop d m (fun i j _ => if (i + 1 <? j)%nat then nint A 0 else nint A 1)
     (fun i j H => aset H (i * Z.of_nat m + j) (if i - j + 1 <? 0 then nint A 0 else nint A 1)) (repeat d (m * m))) as (H1 & -> & L1 & E1).
  { apply repeat_length. }
  { intros i j C I J LC. replace (Z.of_nat i * Z.of_nat m + Z.of_nat j) with (Z.of_nat (i * m + j)) by lia.
    rewrite put_ok by nia. rewrite Nat2Z.id. f_equal. f_equal.
    destruct (Z.ltb_spec (Z.of_nat i - Z.of_nat j + 1) 0), (Nat.ltb_spec (i + 1) j); try reflexivity; lia. }
  cbn [bind].
  match goal with |- context[bind (for_ m 0 ?f H1) _] =>
    destruct (for_inv (fun i C => length C = (m * m)%nat /\ forall a b, (a < m)%nat -> (b < m)%nat -> ent C a b = stage (Z.to_nat i) a b) f m 0 H1)
      as (H2 & -> & L2 & E2) end.
  { split; [exact L1|]. intros a b Ha Hb. unfold stage. change (Z.to_nat 0) with O. rewrite !andb_false_r. cbn [sub_if].
    unfold ent. now rewrite E1. }
  { intros i C I (LC & EC). assert (Hk : exists k, i = Z.of_nat k) by (exists (Z.to_nat i); lia). destruct Hk as (k & ->). rewrite Nat2Z.id in EC.
    assert (B1 : (k * m + 0 < m * m)%nat) by nia. assert (B2 : ((m - 1) * m + k < m * m)%nat) by nia.
    replace (Z.of_nat k * Z.of_nat m) with (Z.of_nat (k * m + 0)) by lia.
    replace ((Z.of_nat m - 1) * Z.of_nat m + Z.of_nat k) with (Z.of_nat ((m - 1) * m + k)) by nia.
    rewrite (get_nat d) by (rewrite LC; exact B1). cbn [bind]. rewrite put_nat by (rewrite LC; exact B1). cbn [bind].
    rewrite (get_nat d) by (rewrite set_nth_length, LC; exact B2). cbn [bind].
    rewrite put_nat by (rewrite set_nth_length, LC; exact B2). eexists. split; [reflexivity|]. split; [now rewrite !set_nth_length|].
    change (nth (k * m + 0) C d) with (ent C k 0).
    match goal with |- context[nth ((m - 1) * m + k) ?C1 d] => change (nth ((m - 1) * m + k) C1 d) with (ent C1 (m - 1) k) end.
    intros a b Ha Hb. replace (Z.to_nat (Z.of_nat k + 1)) with (S k) by lia.
    rewrite !ent_set by (rewrite ?set_nth_length; auto; lia).
    rewrite !EC by (auto; lia). clear E1 EC L1 LC. unfold stage.
    assert (ZA : forall x y, Z.of_nat x = y -> npow A h y = npow A h (Z.of_nat x)) by (intros; subst; reflexivity).
    destruct (Nat.eqb_spec a (m - 1)) as [->|Na]; destruct (Nat.eqb_spec b k) as [->|Nb]; cbn [andb].
    - destruct (Nat.ltb_spec k (S k)); [|lia]. destruct (Nat.ltb_spec k k); [lia|].
      destruct (Nat.eqb_spec (m - 1) k) as [E|N]; destruct (Nat.eqb_spec k 0) as [K0|K0]; cbn [andb].
      + rewrite E, K0. rewrite !Nat.eqb_refl. cbn [andb].
        destruct (Nat.ltb_spec 0 1); [|lia]. destruct (Nat.ltb_spec 0 0); [lia|]. cbn [sub_if].
        rewrite (ZA m (Z.of_nat 0 + 1)) by lia. rewrite (ZA m (Z.of_nat m - Z.of_nat 0)) by lia. fin.
      + destruct (Nat.eqb_spec 0 k); [lia|]. rewrite !andb_false_r. fin.
      + subst k. destruct (Nat.eqb_spec 0 (m - 1)); [lia|]. cbn [andb].
        destruct (Nat.ltb_spec (m - 1) 0); [lia|]. destruct (Nat.ltb_spec (m - 1) 1); [lia|]. fin.
      + fin.
    - destruct (Nat.eqb_spec (m - 1) k) as [E|N]; destruct (Nat.eqb_spec b 0) as [K0|K0]; cbn [andb].
      + subst b. destruct (Nat.ltb_spec (m - 1) (S k)); [|lia]. destruct (Nat.ltb_spec (m - 1) k); [lia|].
        destruct (Nat.eqb_spec k (m - 1)); [|lia]. cbn [andb].
        destruct (Nat.ltb_spec 0 k); [|lia]. destruct (Nat.ltb_spec 0 (S k)); [|lia]. rewrite E. destruct (Nat.ltb_spec k k); [lia|].
        cbn [sub_if]. rewrite (ZA m (Z.of_nat k + 1)) by lia. fin.
      + assert (Q : (b <? S k)%nat = (b <? k)%nat) by (destruct (Nat.ltb_spec b (S k)), (Nat.ltb_spec b k); try reflexivity; lia).
        rewrite Q; fin.
      + subst b. assert (Q : (m - 1 <? S k)%nat = (m - 1 <? k)%nat) by (destruct (Nat.ltb_spec (m - 1) (S k)), (Nat.ltb_spec (m - 1) k); try reflexivity; lia).
        assert (Q' : (0 <? S k)%nat = (0 <? k)%nat) by (destruct (Nat.ltb_spec 0 (S k)), (Nat.ltb_spec 0 k); try reflexivity; lia).
        rewrite Q, Q'; fin.
      + assert (Q : (b <? S k)%nat = (b <? k)%nat) by (destruct (Nat.ltb_spec b (S k)), (Nat.ltb_spec b k); try reflexivity; lia).
        rewrite Q; fin.
    - destruct (Nat.eqb_spec a k) as [->|Nk]; destruct (Nat.eqb_spec k 0) as [K0|K0]; cbn [andb].
      + subst k. destruct (Nat.ltb_spec 0 1); [|lia]. destruct (Nat.ltb_spec 0 0); [lia|]. destruct (Nat.eqb_spec 0 (m - 1)); [lia|].
        fin.
      + fin.
      + subst k. assert (Q : (a <? 1)%nat = (a <? 0)%nat) by (destruct (Nat.ltb_spec a 1), (Nat.ltb_spec a 0); try reflexivity; lia).
        rewrite Q; fin.
      + fin.
    - destruct (Nat.eqb_spec a k) as [->|Nk]; destruct (Nat.eqb_spec b 0) as [K0|K0]; cbn [andb].
      + subst b. destruct (Nat.ltb_spec k (S k)); [|lia]. destruct (Nat.ltb_spec k k); [lia|]. destruct (Nat.eqb_spec k (m - 1)); [lia|].
        fin.
      + fin.
      + assert (Q : (a <? S k)%nat = (a <? k)%nat) by (destruct (Nat.ltb_spec a (S k)), (Nat.ltb_spec a k); try reflexivity; lia).
        rewrite Q; fin.
      + fin. }
  cbn [bind]. replace (Z.to_nat (0 + Z.of_nat m)) with m in E2 by lia.
  assert (B0 : ((m - 1) * m + 0 < m * m)%nat) by nia.
  replace ((Z.of_nat m - 1) * Z.of_nat m) with (Z.of_nat ((m - 1) * m + 0)) by nia.
  rewrite (get_nat d) by (rewrite L2; exact B0). cbn [bind]. rewrite put_nat by (rewrite L2; exact B0). cbn [bind].
  change (nth ((m - 1) * m + 0) H2 d) with (ent H2 (m - 1) 0). rewrite E2 by lia. fold corner.
  set (H3 := set_nth H2 ((m - 1) * m + 0) (nadd A (stage m (m - 1) 0) corner)).
  assert (L3 : length H3 = (m * m)%nat) by (unfold H3; now rewrite set_nth_length).
  assert (E3 : forall a b, (a < m)%nat -> (b < m)%nat -> ent H3 a b = if ((a =? m - 1) && (b =? 0))%nat then nadd A (stage m a b) corner else stage m a b).
  { intros a b Ha Hb. unfold H3. rewrite ent_set by (auto; lia).
    destruct (Nat.eqb_spec a (m - 1)) as [->|Na]; destruct (Nat.eqb_spec b 0) as [->|Nb]; cbn [andb]; auto. }
  destruct (grid_loop d m (fun i j x => divs (i + 1 - j) x)
     (fun i j H => if i - j + 1 >? 0 then
      for_ (Z.to_nat (i - j + 1)) 1 (fun g H =>
        do x <- aget H (i * Z.of_nat m + j) ;; aset H (i * Z.of_nat m + j) (ndiv A x (nint A g))) H
    else Ok H) H3 L3) as (H4 & -> & L4 & E4).
  { intros i j C I J LC. replace (Z.of_nat i * Z.of_nat m + Z.of_nat j) with (Z.of_nat (i * m + j)) by lia.
    assert (B : (i * m + j < m * m)%nat) by nia.
    assert (SN : set_nth C (i * m + j) (nth (i * m + j) C d) = C).
    { assert (B' : (i * m + j < length C)%nat) by lia. revert B'. generalize (i * m + j)%nat. clear.
      induction C as [|x C IH]; intros [|t] L; cbn in *; try lia; [reflexivity|]. now rewrite IH by lia. }
    destruct (Z.gtb_spec (Z.of_nat i - Z.of_nat j + 1) 0) as [G|G].
    - destruct (for_inv (fun g C' => C' = set_nth C (i * m + j) (divs (Z.to_nat (g - 1)) (nth (i * m + j) C d)))
        (fun g H => do x <- aget H (Z.of_nat (i * m + j)) ;; aset H (Z.of_nat (i * m + j)) (ndiv A x (nint A g)))
        (Z.to_nat (Z.of_nat i - Z.of_nat j + 1)) 1 C) as (C' & E & R).
      + change (Z.to_nat (1 - 1)) with O. cbn [divs]. now rewrite SN.
      + intros g C1 Hg ->. rewrite (get_ok d) by (rewrite set_nth_length; lia). cbn [bind]. rewrite put_ok by (rewrite set_nth_length; lia).
        rewrite Nat2Z.id. rewrite nth_set_nth_eq by lia. eexists. split; [reflexivity|]. rewrite set_nth_twice. f_equal.
        replace (Z.to_nat (g + 1 - 1)) with (S (Z.to_nat (g - 1))) by lia. cbn [divs]. do 2 f_equal. lia.
      + rewrite E. rewrite R. do 3 f_equal. lia.
    - replace (i + 1 - j)%nat with O by lia. cbn [divs]. now rewrite SN. }
  exists H4. split; [reflexivity|]. split; [exact L4|]. intros a b Ha Hb. unfold ent. rewrite E4 by auto.
  change (nth (a * m + b) H3 d) with (ent H3 a b). rewrite E3 by auto. reflexivity.
Qed.
End Fill.
