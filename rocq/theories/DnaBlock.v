(** Pairs of neighbours in a random cyclic sequence of k letters: the expected
    number of places where a given pair stands, and of pairs of such places. *)
From Coq Require Import Lia Lra Bool.
From Verif Require Import BaseLemmas.
From Verif Require Export MissingLaw.
Open Scope R_scope.

Fixpoint tuples {B} (A : list B) (k : nat) : list (list B) :=
  match k with O => [[]] | S k => flat_map (fun rows => map (fun r => r :: rows) A) (tuples A k) end.

Lemma lsumR_le {A} (l : list A) f g : (forall x, In x l -> f x <= g x) -> lsumR l f <= lsumR l g.
Proof.
  induction l as [|x l IH]; intro H; cbn [lsumR]; [lra|]. specialize (IH (fun y Y => H y (or_intror Y))). specialize (H x (or_introl eq_refl)). lra.
Qed.
Lemma rprod_one n : rprod n (fun _ => 1) = 1.
Proof. induction n as [|n IH]; cbn [rprod]; [reflexivity|]. rewrite IH. ring. Qed.
Lemma rprod_point n : forall p v, (p < n)%nat -> rprod n (fun t => if (t =? p)%nat then v t else 1) = v p.
Proof.
  induction n as [|n IH]; intros p v P; [lia|]. cbn [rprod]. destruct p as [|p].
  - cbn [Nat.eqb]. rewrite rprod_one. ring.
  - cbn [Nat.eqb]. rewrite (IH p (fun t => v (S t))) by lia. ring.
Qed.
Lemma rsum_point n : forall p v, (p < n)%nat -> rsum n (fun t => if (t =? p)%nat then v t else 0) = v p.
Proof.
  induction n as [|n IH]; intros p v P; [lia|]. cbn [rsum]. destruct (Nat.eqb_spec n p) as [->|Ne].
  - rewrite (rsum_ext _ _ (fun _ => 0)); [rewrite rsum_zero; ring|]. intros t T. replace (t =? p)%nat with false by (symmetry; apply Nat.eqb_neq; lia). reflexivity.
  - rewrite (IH p v) by lia. ring.
Qed.

Lemma rsum_mul n m f g : rsum n f * rsum m g = rsum n (fun s => rsum m (fun t => f s * g t)).
Proof. rewrite Rmult_comm, rsum_scale. apply rsum_ext. intros s _. rewrite <- rsum_scale. ring. Qed.

Section Cycle.
Context {B : Type} (eqB : forall x y : B, {x = y} + {x <> y}) (A : list B) (d0 : B) (k : nat).
Hypothesis (NA : NoDup A) (LA : A <> []) (K4 : (4 <= k)%nat).
Let q := INR (length A).
Definition delta (a b : B) : R := if eqB a b then 1 else 0.
Lemma q_pos : 0 < q.
Proof. unfold q. apply lt_0_INR. destruct A; [congruence|cbn; lia]. Qed.
Lemma delta_sum a : In a A -> lsumR A (delta a) = 1.
Proof.
  intro I. unfold delta. clear LA. clear q. induction A as [|x l IH]; [destruct I|]. inversion NA as [|? ? Nx Nl]; subst. cbn [lsumR]. destruct (eqB a x) as [->|Ne].
  - rewrite (lsumR_ext l _ (fun _ => 0)); [rewrite lsumR_zero; ring|]. intros y Y. destruct (eqB x y) as [->|]; [contradiction|reflexivity].
  - destruct I as [->|I]; [congruence|]. rewrite IH by assumption. ring.
Qed.
Lemma delta_sum2 a b : In a A -> lsumR A (fun x => delta a x * delta b x) = delta a b.
Proof.
  intro I. rewrite (lsumR_ext _ _ (fun x => delta b a * delta a x)).
  - rewrite lsumR_scale, delta_sum by exact I. unfold delta. destruct (eqB b a), (eqB a b); congruence || ring.
  - intros x _. unfold delta. destruct (eqB a x) as [->|]; [ring|]. ring.
Qed.
Lemma tuples_sum n f : lsumR (tuples A (S n)) f = lsumR A (fun a => lsumR (tuples A n) (fun c => f (a :: c))).
Proof. cbn [tuples]. rewrite lsumR_flat. rewrite lsumR_swap. apply lsumR_ext. intros c _. apply lsumR_map. Qed.

(** ** expectations *)
Definition Ex (f : list B -> R) : R := lsumR (tuples A k) f / q ^ k.
Lemma qk_pos n : 0 < q ^ n.
Proof. apply pow_lt, q_pos. Qed.
Lemma Ex_ext f g : (forall c, In c (tuples A k) -> f c = g c) -> Ex f = Ex g.
Proof. intro H. unfold Ex. now rewrite (lsumR_ext _ f g H). Qed.
Lemma Ex_plus f g : Ex (fun c => f c + g c) = Ex f + Ex g.
Proof. unfold Ex. rewrite lsumR_plus. field. apply Rgt_not_eq, qk_pos. Qed.
Lemma Ex_scale a f : Ex (fun c => a * f c) = a * Ex f.
Proof. unfold Ex. rewrite lsumR_scale. field. apply Rgt_not_eq, qk_pos. Qed.
Lemma Ex_le f g : (forall c, In c (tuples A k) -> f c <= g c) -> Ex f <= Ex g.
Proof.
  intro H. unfold Ex, Rdiv. apply Rmult_le_compat_r; [left; apply Rinv_0_lt_compat, qk_pos|]. now apply lsumR_le.
Qed.
Lemma Ex_rsum n f : Ex (fun c => rsum n (fun s => f s c)) = rsum n (fun s => Ex (f s)).
Proof.
  unfold Ex. rewrite (lsumR_rsum (tuples A k) n (fun c s => f s c)). unfold Rdiv. rewrite Rmult_comm, rsum_scale. apply rsum_ext. intros i _. apply Rmult_comm.
Qed.
Lemma prod_sum n : forall phi, lsumR (tuples A n) (fun c => rprod n (fun t => phi t (nth t c d0))) = rprod n (fun t => lsumR A (phi t)).
Proof.
  induction n as [|n IH]; intro phi; [cbn; ring|]. rewrite tuples_sum. cbn [rprod nth].
  rewrite (lsumR_ext A _ (fun a => phi 0%nat a * rprod n (fun s => lsumR A (phi (S s))))).
  - apply lsumR_scale_r.
  - intros a _. now rewrite lsumR_scale, (IH (fun s => phi (S s))).
Qed.
Lemma prod_one n : lsumR (tuples A n) (fun _ => 1) = q ^ n.
Proof.
  pose proof (prod_sum n (fun _ _ => 1)) as H. rewrite (lsumR_ext _ _ (fun _ => 1)) in H by (intros; apply rprod_one). rewrite H. clear H.
  rewrite (rprod_ext n _ (fun _ => q)) by (intros; rewrite lsumR_const; fold q; ring). induction n as [|n IH]; cbn [rprod pow]; [reflexivity|]. now rewrite IH.
Qed.
Lemma Ex_one : Ex (fun _ => 1) = 1.
Proof. unfold Ex. rewrite prod_one. field. apply Rgt_not_eq, qk_pos. Qed.
Lemma Ex_const a : Ex (fun _ => a) = a.
Proof. rewrite (Ex_ext _ (fun _ => a * 1)) by (intros; ring). rewrite Ex_scale, Ex_one. ring. Qed.
Lemma Ex_prod phi : Ex (fun c => rprod k (fun t => phi t (nth t c d0))) = rprod k (fun t => lsumR A (phi t) / q).
Proof.
  unfold Ex. rewrite prod_sum. generalize k. intro n. pose proof q_pos as Q. revert phi. induction n as [|n IH]; intro phi; cbn [rprod pow]; [field|].
  rewrite <- (IH (fun s => phi (S s))). field. split; [apply pow_nonzero|]; lra.
Qed.

(** ** places *)
Definition nxt (s : nat) : nat := if (S s =? k)%nat then 0%nat else S s.
Definition here (x : B * B) (c : list B) (s : nat) : R := delta (fst x) (nth s c d0) * delta (snd x) (nth (nxt s) c d0).
Lemma nxt_lt s : (s < k)%nat -> (nxt s < k)%nat.
Proof. intro H. unfold nxt. destruct (Nat.eqb_spec (S s) k); lia. Qed.
Lemma nxt_ne s : (s < k)%nat -> nxt s <> s.
Proof. intro H. unfold nxt. destruct (Nat.eqb_spec (S s) k); lia. Qed.
Lemma nxt_inj s t : (s < k)%nat -> (t < k)%nat -> nxt s = nxt t -> s = t.
Proof. intros H T. unfold nxt. destruct (Nat.eqb_spec (S s) k), (Nat.eqb_spec (S t) k); lia. Qed.
Lemma nxt2_ne s : (s < k)%nat -> nxt (nxt s) <> s.
Proof. intro H. unfold nxt at 1. destruct (Nat.eqb_spec (S (nxt s)) k) as [E|E]; unfold nxt in *; destruct (Nat.eqb_spec (S s) k); lia. Qed.
Lemma nxt3_ne s : (s < k)%nat -> nxt (nxt (nxt s)) <> s.
Proof.
  intro H. unfold nxt. destruct (Nat.eqb_spec (S s) k); [destruct (Nat.eqb_spec 1 k); [lia|]; destruct (Nat.eqb_spec 2 k); lia|].
  destruct (Nat.eqb_spec (S (S s)) k); [destruct (Nat.eqb_spec 1 k); lia|]. destruct (Nat.eqb_spec (S (S (S s))) k); lia.
Qed.
Definition D (p : nat) (a : B) (t : nat) (v : B) : R := if (t =? p)%nat then delta a v else 1.
Lemma D_prod p a c : (p < k)%nat -> delta a (nth p c d0) = rprod k (fun t => D p a t (nth t c d0)).
Proof. intro P. unfold D. now rewrite (rprod_point k p (fun t => delta a (nth t c d0))). Qed.
Definition V (p : nat) (v : R) (t : nat) : R := if (t =? p)%nat then v else 1.
Lemma V_prod p v : (p < k)%nat -> rprod k (V p v) = v.
Proof. intro P. unfold V. exact (rprod_point k p (fun _ => v) P). Qed.
Lemma A_one : lsumR A (fun _ => 1) / q = 1.
Proof. rewrite lsumR_const. fold q. field. apply Rgt_not_eq, q_pos. Qed.
Definition isin (x : B * B) : Prop := In (fst x) A /\ In (snd x) A.
Lemma pair_ex x s : isin x -> (s < k)%nat -> Ex (fun c => here x c s) = / q ^ 2.
Proof.
  intros (X1 & X2) Hs. pose proof (nxt_lt s Hs) as Hn. pose proof (nxt_ne s Hs) as Ne.
  rewrite (Ex_ext _ (fun c => rprod k (fun t => D s (fst x) t (nth t c d0) * D (nxt s) (snd x) t (nth t c d0)))).
  2:{ intros c _. unfold here. rewrite (D_prod s) by exact Hs. rewrite (D_prod (nxt s)) by exact Hn. apply rprod_mul. }
  rewrite (Ex_prod (fun t v => D s (fst x) t v * D (nxt s) (snd x) t v)).
  rewrite (rprod_ext k _ (fun t => V s (/ q) t * V (nxt s) (/ q) t)).
  - rewrite <- rprod_mul, !V_prod by assumption. field. apply Rgt_not_eq, q_pos.
  - intros t T. unfold D, V. pose proof q_pos. destruct (Nat.eqb_spec t s) as [->|E1].
    + replace (s =? nxt s)%nat with false by (symmetry; apply Nat.eqb_neq; lia). rewrite (lsumR_ext _ _ (delta (fst x))) by (intros; ring). rewrite delta_sum by exact X1. field. lra.
    + destruct (Nat.eqb_spec t (nxt s)) as [->|E2].
      * rewrite (lsumR_ext _ _ (delta (snd x))) by (intros; ring). rewrite delta_sum by exact X2. field. lra.
      * rewrite (lsumR_ext _ _ (fun _ => 1)) by (intros; ring). rewrite A_one. ring.
Qed.
Definition chain (x y : B * B) : R := delta (snd x) (fst y).
Definition same (x y : B * B) : R := delta (fst x) (fst y) * delta (snd x) (snd y).
Lemma delta_refl a : delta a a = 1.
Proof. unfold delta. destruct (eqB a a); congruence. Qed.
Lemma delta_mul a b v : delta a v * delta b v = delta a b * delta a v.
Proof. unfold delta. destruct (eqB a v) as [->|]; [|ring]. destruct (eqB b v), (eqB v b); congruence || ring. Qed.
Lemma here_same x y c s : here x c s * here y c s = same x y * here x c s.
Proof.
  unfold here, same. replace (delta (fst x) (nth s c d0) * delta (snd x) (nth (nxt s) c d0) * (delta (fst y) (nth s c d0) * delta (snd y) (nth (nxt s) c d0)))
    with ((delta (fst x) (nth s c d0) * delta (fst y) (nth s c d0)) * (delta (snd x) (nth (nxt s) c d0) * delta (snd y) (nth (nxt s) c d0))) by ring.
  rewrite !delta_mul. ring.
Qed.
Lemma next_ex x y s : isin x -> isin y -> (s < k)%nat -> Ex (fun c => here x c s * here y c (nxt s)) = chain x y * / q ^ 3.
Proof.
  intros (X1 & X2) (Y1 & Y2) Hs. pose proof (nxt_lt s Hs) as Hn. pose proof (nxt_ne s Hs) as Ne. pose proof (nxt_lt _ Hn) as Hn2. pose proof (nxt_ne _ Hn) as Ne2. pose proof (nxt2_ne s Hs) as Ne3.
  set (s1 := nxt s) in *. set (s2 := nxt s1) in *.
  rewrite (Ex_ext _ (fun c => chain x y * rprod k (fun t => D s (fst x) t (nth t c d0) * (D s1 (snd x) t (nth t c d0) * D s2 (snd y) t (nth t c d0))))).
  2:{ intros c _. rewrite <- rprod_mul, <- rprod_mul, <- !D_prod by assumption. unfold here, chain. fold s1 s2.
      replace (delta (fst x) (nth s c d0) * delta (snd x) (nth s1 c d0) * (delta (fst y) (nth s1 c d0) * delta (snd y) (nth s2 c d0)))
        with (delta (fst x) (nth s c d0) * (delta (snd x) (nth s1 c d0) * delta (fst y) (nth s1 c d0)) * delta (snd y) (nth s2 c d0)) by ring. rewrite delta_mul. ring. }
  rewrite Ex_scale. f_equal. rewrite (Ex_prod (fun t v => D s (fst x) t v * (D s1 (snd x) t v * D s2 (snd y) t v))).
  rewrite (rprod_ext k _ (fun t => V s (/ q) t * (V s1 (/ q) t * V s2 (/ q) t))).
  - rewrite <- !rprod_mul, !V_prod by assumption. field. apply Rgt_not_eq, q_pos.
  - intros t T. unfold D, V. pose proof q_pos. destruct (Nat.eqb_spec t s) as [->|E1].
    + replace (s =? s1)%nat with false by (symmetry; apply Nat.eqb_neq; lia). replace (s =? s2)%nat with false by (symmetry; apply Nat.eqb_neq; lia).
      rewrite (lsumR_ext _ _ (delta (fst x))) by (intros; ring). rewrite delta_sum by exact X1. field. lra.
    + destruct (Nat.eqb_spec t s1) as [->|E2].
      * replace (s1 =? s2)%nat with false by (symmetry; apply Nat.eqb_neq; lia). rewrite (lsumR_ext _ _ (delta (snd x))) by (intros; ring). rewrite delta_sum by exact X2. field. lra.
      * destruct (Nat.eqb_spec t s2) as [->|E3].
        -- rewrite (lsumR_ext _ _ (delta (snd y))) by (intros; ring). rewrite delta_sum by exact Y2. field. lra.
        -- rewrite (lsumR_ext _ _ (fun _ => 1)) by (intros; ring). rewrite A_one. ring.
Qed.
Lemma apart_ex x y s t : isin x -> isin y -> (s < k)%nat -> (t < k)%nat -> t <> s -> t <> nxt s -> s <> nxt t -> Ex (fun c => here x c s * here y c t) = / q ^ 4.
Proof.
  intros (X1 & X2) (Y1 & Y2) Hs Ht N1 N2 N3. pose proof (nxt_lt s Hs) as Hs1. pose proof (nxt_ne s Hs) as Ns. pose proof (nxt_lt t Ht) as Ht1. pose proof (nxt_ne t Ht) as Nt.
  assert (N4 : nxt s <> nxt t) by (intro E; apply N1; symmetry; now apply nxt_inj).
  set (s1 := nxt s) in *. set (t1 := nxt t) in *.
  rewrite (Ex_ext _ (fun c => rprod k (fun r => (D s (fst x) r (nth r c d0) * D s1 (snd x) r (nth r c d0)) * (D t (fst y) r (nth r c d0) * D t1 (snd y) r (nth r c d0))))).
  2:{ intros c _. rewrite <- !rprod_mul, <- !D_prod by assumption. reflexivity. }
  rewrite (Ex_prod (fun r v => (D s (fst x) r v * D s1 (snd x) r v) * (D t (fst y) r v * D t1 (snd y) r v))).
  rewrite (rprod_ext k _ (fun r => (V s (/ q) r * V s1 (/ q) r) * (V t (/ q) r * V t1 (/ q) r))).
  - rewrite <- !rprod_mul, !V_prod by assumption. field. apply Rgt_not_eq, q_pos.
  - intros r T. unfold D, V. pose proof q_pos.
    destruct (Nat.eqb_spec r s), (Nat.eqb_spec r s1), (Nat.eqb_spec r t), (Nat.eqb_spec r t1); try lia.
    + rewrite (lsumR_ext _ _ (delta (fst x))) by (intros; ring). rewrite delta_sum by exact X1. field. lra.
    + rewrite (lsumR_ext _ _ (delta (snd x))) by (intros; ring). rewrite delta_sum by exact X2. field. lra.
    + rewrite (lsumR_ext _ _ (delta (fst y))) by (intros; ring). rewrite delta_sum by exact Y1. field. lra.
    + rewrite (lsumR_ext _ _ (delta (snd y))) by (intros; ring). rewrite delta_sum by exact Y2. field. lra.
    + rewrite (lsumR_ext _ _ (fun _ => 1)) by (intros; ring). rewrite A_one. ring.
Qed.

(** ** the number of places *)
Definition places (x : B * B) (c : list B) : R := rsum k (here x c).
Lemma places_ex x : isin x -> Ex (places x) = INR k / q ^ 2.
Proof.
  intro X. unfold places. etransitivity; [exact (Ex_rsum k (fun s c => here x c s))|]. rewrite (rsum_ext _ _ (fun _ => / q ^ 2)) by (intros; now apply pair_ex). rewrite rsum_const. reflexivity.
Qed.
Definition eqn (a b : nat) : R := if (a =? b)%nat then 1 else 0.
Lemma both_ex x y s t : isin x -> isin y -> (s < k)%nat -> (t < k)%nat -> Ex (fun c => here x c s * here y c t) =
  eqn t s * (same x y * / q ^ 2) + eqn t (nxt s) * (chain x y * / q ^ 3) + eqn s (nxt t) * (chain y x * / q ^ 3) + (1 - eqn t s - eqn t (nxt s) - eqn s (nxt t)) * / q ^ 4.
Proof.
  intros X Y Hs Ht. unfold eqn. destruct (Nat.eqb_spec t s) as [->|N1].
  - pose proof (nxt_ne s Hs). replace (s =? nxt s)%nat with false by (symmetry; apply Nat.eqb_neq; lia).
    rewrite (Ex_ext _ (fun c => same x y * here x c s)) by (intros; apply here_same). rewrite Ex_scale, pair_ex by assumption. ring.
  - destruct (Nat.eqb_spec t (nxt s)) as [->|N2].
    + pose proof (nxt2_ne s Hs). replace (s =? nxt (nxt s))%nat with false by (symmetry; apply Nat.eqb_neq; lia). rewrite next_ex by assumption. ring.
    + destruct (Nat.eqb_spec s (nxt t)) as [->|N3].
      * rewrite (Ex_ext _ (fun c => here y c t * here x c (nxt t))) by (intros; ring). rewrite next_ex by assumption. ring.
      * rewrite apart_ex by assumption. ring.
Qed.
Lemma eqn_sum p (v : R) : (p < k)%nat -> rsum k (fun t => eqn t p * v) = v.
Proof.
  intro P. unfold eqn. rewrite (rsum_ext _ _ (fun t => if (t =? p)%nat then v else 0)) by (intros; destruct (_ =? _)%nat; ring). exact (rsum_point k p (fun _ => v) P).
Qed.
Lemma eqn_sym a b : eqn a b = eqn b a.
Proof. unfold eqn. now rewrite Nat.eqb_sym. Qed.
Lemma places2_ex x y : isin x -> isin y -> Ex (fun c => places x c * places y c) =
  INR k * (same x y / q ^ 2 + (chain x y + chain y x) / q ^ 3 + (INR k - 3) / q ^ 4).
Proof.
  intros X Y. unfold places.
  rewrite (Ex_ext _ (fun c => rsum k (fun s => rsum k (fun t => here x c s * here y c t)))) by (intros; apply rsum_mul).
  rewrite (Ex_rsum k (fun s c => rsum k (fun t => here x c s * here y c t))).
  rewrite (rsum_ext _ _ (fun s => rsum k (fun t => eqn t s * (same x y * / q ^ 2 - / q ^ 4) + (eqn t (nxt s) * (chain x y * / q ^ 3 - / q ^ 4) + (eqn s (nxt t) * (chain y x * / q ^ 3 - / q ^ 4) + / q ^ 4))))).
  2:{ intros s Hs. rewrite (Ex_rsum k (fun t c => here x c s * here y c t)). apply rsum_ext. intros t Ht. rewrite both_ex by assumption. ring. }
  set (v1 := same x y * / q ^ 2 - / q ^ 4). set (v2 := chain x y * / q ^ 3 - / q ^ 4). set (v3 := chain y x * / q ^ 3 - / q ^ 4).
  rewrite (rsum_ext _ _ (fun s => (v1 + v2 + INR k * / q ^ 4) + rsum k (fun t => eqn s (nxt t) * v3))).
  2:{ intros s Hs. rewrite <- !rsum_plus, rsum_const. rewrite (eqn_sum s v1 Hs), (eqn_sum (nxt s) v2 (nxt_lt s Hs)). ring. }
  rewrite <- rsum_plus, rsum_const, rsum_swap. rewrite (rsum_ext k (fun j => rsum k (fun i => eqn i (nxt j) * v3)) (fun _ => v3)) by (intros t Ht; exact (eqn_sum (nxt t) v3 (nxt_lt t Ht))).
  rewrite rsum_const. unfold v1, v2, v3. field. apply Rgt_not_eq, q_pos.
Qed.

(** ** occurring at all *)
Definition missed (x : B * B) (c : list B) : R := rprod k (fun s => 1 - here x c s).
Lemma here_01 x c s : here x c s = 0 \/ here x c s = 1.
Proof. unfold here, delta. destruct (eqB _ _), (eqB _ _); rewrite ?Rmult_0_l, ?Rmult_0_r, ?Rmult_1_l; auto. Qed.
Lemma bonferroni n : forall f, (forall s, f s = 0 \/ f s = 1) -> exists N0 : nat, rsum n f = INR N0 /\ rprod n (fun s => 1 - f s) = match N0 with O => 1 | _ => 0 end.
Proof.
  assert (SN : forall n f, rsum (S n) f = f 0%nat + rsum n (fun s => f (S s))).
  { clear. intros n f. induction n as [|n IH]; [cbn; ring|]. cbn [rsum] in *. rewrite IH. ring. }
  induction n as [|n IH]; intros f H; [exists 0%nat; split; reflexivity|]. rewrite SN. cbn [rprod].
  destruct (IH (fun s => f (S s)) (fun s => H (S s))) as (N0 & E & P). rewrite E, P. destruct (H 0%nat) as [->| ->].
  - exists N0. split; [ring|ring].
  - exists (S N0). split; [rewrite S_INR; ring|ring].
Qed.
Lemma missed_low x c : 1 - places x c <= missed x c.
Proof.
  unfold missed, places. destruct (bonferroni k (here x c) (here_01 x c)) as ([|n] & -> & ->); [cbn; lra|]. rewrite S_INR. pose proof (pos_INR n). lra.
Qed.
Lemma missed_high x c : missed x c <= 1 - places x c + (places x c * places x c - places x c) / 2.
Proof.
  unfold missed, places. destruct (bonferroni k (here x c) (here_01 x c)) as ([|n] & -> & ->); [cbn; lra|]. rewrite S_INR. pose proof (pos_INR n).
  destruct n as [|n]; [cbn; lra|]. rewrite S_INR in *. pose proof (pos_INR n). nra.
Qed.
Lemma missed_01 x c : 0 <= missed x c <= 1.
Proof. unfold missed. destruct (bonferroni k (here x c) (here_01 x c)) as ([|n] & _ & ->); lra. Qed.
Lemma places_nonneg x c : 0 <= places x c.
Proof. unfold places. destruct (bonferroni k (here x c) (here_01 x c)) as (n & -> & _). apply pos_INR. Qed.
Lemma missed_idem x c : missed x c * missed x c = missed x c.
Proof. unfold missed. destruct (bonferroni k (here x c) (here_01 x c)) as ([|n] & _ & ->); ring. Qed.

Definition pmiss (x : B * B) : R := Ex (missed x).
Definition pmiss2 (x y : B * B) : R := Ex (fun c => missed x c * missed y c).
Let u := INR k / q ^ 2.
Definition second (x y : B * B) : R := INR k * ((chain x y + chain y x) / q ^ 3 + (INR k - 3) / q ^ 4).
Lemma pmiss_low x : isin x -> 1 - u <= pmiss x.
Proof.
  intro X. unfold pmiss. eapply Rle_trans; [|apply Ex_le; intros c _; apply missed_low]. rewrite (Ex_ext _ (fun c => 1 + -1 * places x c)) by (intros; ring).
  rewrite Ex_plus, Ex_scale, Ex_one, places_ex by exact X. unfold u. lra.
Qed.
Lemma same_refl x : same x x = 1.
Proof. unfold same. rewrite !delta_refl. ring. Qed.
Lemma pmiss_high x : isin x -> pmiss x <= 1 - u + second x x / 2.
Proof.
  intro X. unfold pmiss. eapply Rle_trans; [apply Ex_le; intros c _; apply missed_high|].
  rewrite (Ex_ext _ (fun c => 1 + (- (3 / 2) * places x c + / 2 * (places x c * places x c)))) by (intros; field).
  rewrite !Ex_plus, !Ex_scale, Ex_one, places2_ex, places_ex, same_refl by exact X. unfold u, second. right. field. apply Rgt_not_eq, q_pos.
Qed.
Lemma pmiss_01 x : 0 <= pmiss x <= 1.
Proof.
  unfold pmiss. split; [rewrite <- (Ex_const 0)|rewrite <- (Ex_const 1)]; apply Ex_le; intros c _; apply missed_01.
Qed.
Lemma pmiss2_01 x y : 0 <= pmiss2 x y <= 1.
Proof.
  unfold pmiss2. split; [rewrite <- (Ex_const 0)|rewrite <- (Ex_const 1)]; apply Ex_le; intros c _; pose proof (missed_01 x c); pose proof (missed_01 y c); nra.
Qed.
Lemma pmiss2_high x y : isin x -> isin y -> same x y = 0 -> pmiss2 x y <= pmiss x + pmiss y - 1 + second x y.
Proof.
  intros X Y S. unfold pmiss2, pmiss.
  apply Rle_trans with (Ex (fun c => missed x c + (missed y c + (-1 + places x c * places y c)))).
  - apply Ex_le. intros c _. pose proof (missed_01 x c). pose proof (missed_01 y c). pose proof (missed_low x c). pose proof (missed_low y c).
    pose proof (places_nonneg x c). pose proof (places_nonneg y c). assert ((1 - missed x c) * (1 - missed y c) <= places x c * places y c) by (apply Rmult_le_compat; lra). nra.
  - rewrite !Ex_plus, Ex_const, places2_ex, S by assumption. unfold second. right. field. apply Rgt_not_eq, q_pos.
Qed.
End Cycle.
