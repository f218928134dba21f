(** The matrix loops of the Kolmogorov-Smirnov test, for any arithmetic. *)
From Coq Require Import ZArith Lia List Bool.
From Verif Require Import KsModel BaseLemmas.
Import ListNotations.
Open Scope Z_scope.

Lemma for_inv {St} (P : Z -> St -> Prop) (f : Z -> St -> outcome St) : forall n i s, P i s ->
  (forall j s, i <= j < i + Z.of_nat n -> P j s -> exists s', f j s = Ok s' /\ P (j + 1) s') ->
  exists s', for_ n i f s = Ok s' /\ P (i + Z.of_nat n) s'.
Proof.
  induction n as [|n IH]; intros i s H F; cbn [for_].
  - exists s. split; [reflexivity|]. now rewrite Z.add_0_r.
  - destruct (F i s ltac:(lia) H) as (s1 & -> & H1). cbn [bind].
    destruct (IH (i + 1) s1 H1) as (s2 & E & H2).
    + intros j t J. apply F. lia.
    + exists s2. split; [exact E|]. replace (i + Z.of_nat (S n)) with (i + 1 + Z.of_nat n) by lia. exact H2.
Qed.

Section Grid.
Context {T : Type} (d : T).
(** Reading and writing at a valid index. *)
Lemma get_ok (l : list T) i : 0 <= i < Z.of_nat (length l) -> aget l i = Ok (nth (Z.to_nat i) l d).
Proof. intro H. apply aget_ok; lia. Qed.
Lemma put_ok (l : list T) i v : 0 <= i < Z.of_nat (length l) -> aset l i v = Ok (set_nth l (Z.to_nat i) v).
Proof. intro H. apply aset_ok; lia. Qed.
Lemma get_nat (l : list T) t : (t < length l)%nat -> aget l (Z.of_nat t) = Ok (nth t l d).
Proof. intro H. rewrite get_ok by lia. now rewrite Nat2Z.id. Qed.
Lemma put_nat (l : list T) t v : (t < length l)%nat -> aset l (Z.of_nat t) v = Ok (set_nth l t v).
Proof. intro H. rewrite put_ok by lia. now rewrite Nat2Z.id. Qed.

(** A loop over all entries that replaces entry t by G t (entry t). *)
Lemma flat_loop (G : nat -> T -> T) (f : Z -> list T -> outcome (list T)) n C :
  length C = n ->
  (forall i C, 0 <= i < Z.of_nat n -> length C = n -> f i C = Ok (set_nth C (Z.to_nat i) (G (Z.to_nat i) (nth (Z.to_nat i) C d)))) ->
  exists C', for_ n 0 f C = Ok C' /\ length C' = n /\ forall t, (t < n)%nat -> nth t C' d = G t (nth t C d).
Proof.
  intros L F.
  destruct (for_inv (fun i C' => length C' = n /\ forall t, (t < n)%nat -> nth t C' d = if Z.of_nat t <? i then G t (nth t C d) else nth t C d) f n 0 C)
    as (C' & E & L' & H).
  - split; [exact L|]. intros t Ht. destruct (Z.ltb_spec (Z.of_nat t) 0); [lia|reflexivity].
  - intros i C1 I (L1 & H1). rewrite F by (auto; lia). eexists. split; [reflexivity|]. rewrite set_nth_length. split; [exact L1|].
    intros t Ht. destruct (Nat.eq_dec t (Z.to_nat i)) as [->|Ne].
    + rewrite nth_set_nth_eq by lia. rewrite H1 by lia. rewrite Z2Nat.id by lia.
      destruct (Z.ltb_spec i i); [lia|]. destruct (Z.ltb_spec i (i + 1)); [reflexivity|lia].
    + rewrite nth_set_nth_ne by auto. rewrite H1 by auto.
      destruct (Z.ltb_spec (Z.of_nat t) i), (Z.ltb_spec (Z.of_nat t) (i + 1)); try reflexivity; lia.
  - exists C'. split; [exact E|]. split; [exact L'|]. intros t Ht. rewrite H by exact Ht.
    destruct (Z.ltb_spec (Z.of_nat t) (0 + Z.of_nat n)); [reflexivity|lia].
Qed.

(** The same with two nested loops over rows and columns. *)
Lemma grid_loop (m : nat) (F : nat -> nat -> T -> T) (f : Z -> Z -> list T -> outcome (list T)) C :
  length C = (m * m)%nat ->
  (forall i j C, (i < m)%nat -> (j < m)%nat -> length C = (m * m)%nat ->
     f (Z.of_nat i) (Z.of_nat j) C = Ok (set_nth C (i * m + j) (F i j (nth (i * m + j) C d)))) ->
  exists C', for_ m 0 (fun i C => for_ m 0 (fun j C => f i j C) C) C = Ok C' /\ length C' = (m * m)%nat /\
    forall i j, (i < m)%nat -> (j < m)%nat -> nth (i * m + j) C' d = F i j (nth (i * m + j) C d).
Proof.
  intros L H.
  assert (IX : forall a b t, (a < m)%nat -> (b < m)%nat -> t = (a * m + b)%nat -> (t / m)%nat = a /\ (t mod m)%nat = b).
  { intros a b t A B ->. rewrite Nat.add_comm. rewrite Nat.div_add, Nat.mod_add by lia.
    rewrite Nat.div_small, Nat.mod_small by lia. lia. }
  set (G := fun t v => F (t / m)%nat (t mod m)%nat v).
  set (Q := fun z C' => length C' = (m * m)%nat /\ forall t, (t < m * m)%nat -> nth t C' d = if Z.of_nat t <? z then G t (nth t C d) else nth t C d).
  destruct (for_inv (fun i C' => Q (i * Z.of_nat m) C') (fun i C => for_ m 0 (fun j C => f i j C) C) m 0 C) as (C' & E & L' & R).
  - split; [exact L|]. intros t Ht. destruct (Z.ltb_spec (Z.of_nat t) (0 * Z.of_nat m)); [lia|reflexivity].
  - intros i C1 I H1.
    destruct (for_inv (fun j C' => Q (i * Z.of_nat m + j) C') (fun j C => f i j C) m 0 C1) as (C2 & E2 & H2).
    + now rewrite Z.add_0_r.
    + intros j C3 J (L3 & H3). pose proof (H (Z.to_nat i) (Z.to_nat j) C3 ltac:(lia) ltac:(lia) L3) as E3.
      rewrite !Z2Nat.id in E3 by lia. rewrite E3. eexists. split; [reflexivity|]. split; [now rewrite set_nth_length|].
      set (a := Z.to_nat i) in *. set (b := Z.to_nat j) in *.
      assert (Ha : i = Z.of_nat a) by lia. assert (Hb : j = Z.of_nat b) by lia. clearbody a b. subst i j.
      assert (B : (a * m + b < m * m)%nat) by nia.
      intros t Ht. destruct (Nat.eq_dec t (a * m + b)) as [->|Ne].
      * rewrite nth_set_nth_eq by lia. rewrite H3 by lia. destruct (IX a b (a * m + b)%nat) as (D1 & D2); [lia|lia|reflexivity|].
        unfold G. rewrite D1, D2.
        destruct (Z.ltb_spec (Z.of_nat (a * m + b)) (Z.of_nat a * Z.of_nat m + Z.of_nat b)); [lia|].
        destruct (Z.ltb_spec (Z.of_nat (a * m + b)) (Z.of_nat a * Z.of_nat m + (Z.of_nat b + 1))); [reflexivity|lia].
      * rewrite nth_set_nth_ne by auto. rewrite H3 by auto.
        destruct (Z.ltb_spec (Z.of_nat t) (Z.of_nat a * Z.of_nat m + Z.of_nat b)), (Z.ltb_spec (Z.of_nat t) (Z.of_nat a * Z.of_nat m + (Z.of_nat b + 1)));
          try reflexivity; lia.
    + exists C2. split; [exact E2|]. replace ((i + 1) * Z.of_nat m) with (i * Z.of_nat m + (0 + Z.of_nat m)) by ring. exact H2.
  - exists C'. split; [exact E|]. split; [exact L'|]. intros i j I J. assert (B : (i * m + j < m * m)%nat) by nia. rewrite R by exact B.
    destruct (IX i j (i * m + j)%nat) as (D1 & D2); auto.
    destruct (Z.ltb_spec (Z.of_nat (i * m + j)) ((0 + Z.of_nat m) * Z.of_nat m)); [|lia]. unfold G. now rewrite D1, D2.
Qed.
End Grid.

Lemma set_nth_twice {T} : forall (l : list T) i a b, set_nth (set_nth l i a) i b = set_nth l i b.
Proof. induction l as [|x l IH]; intros [|i] a b; cbn; try reflexivity. now rewrite IH. Qed.

Section Generic.
Variable A : arith.
Notation T := (num A).
Notation d := (nint A 0).

(** the sum of the first [n] products of row [i] and column [j] *)
Fixpoint dot (X Y : list T) (m i j n : nat) : T :=
  match n with O => d | S n => nadd A (dot X Y m i j n) (nmul A (nth (i * m + n) X d) (nth (n * m + j) Y d)) end.
Definition product_of (m : nat) (X Y C : list T) : Prop := length C = (m * m)%nat /\
  forall i j, (i < m)%nat -> (j < m)%nat -> nth (i * m + j) C d = dot X Y m i j m.
Lemma mMultiply_ok X Y C m : length X = (m * m)%nat -> length Y = (m * m)%nat -> length C = (m * m)%nat ->
  exists C', mMultiply A X Y C m = Ok C' /\ product_of m X Y C'.
Proof.
  intros LX LY LC. unfold mMultiply. cbn zeta.
  apply (grid_loop d m (fun i j _ => dot X Y m i j m) (fun i j C => do sC <- for_ m 0 (fun k sC =>
                 do x <- aget X (i * Z.of_nat m + k) ;; do y <- aget Y (k * Z.of_nat m + j) ;;
                 let s := nadd A (fst sC) (nmul A x y) in
                 do C <- aset (snd sC) (i * Z.of_nat m + j) s ;; Ok (s, C)) (d, C) ;; Ok (snd sC)) C LC).
  clear C LC. intros i j C I J LC.
  destruct (for_inv (fun k sC => fst sC = dot X Y m i j (Z.to_nat k) /\
      snd sC = if k =? 0 then C else set_nth C (i * m + j) (dot X Y m i j (Z.to_nat k)))
    (fun k sC => do x <- aget X (Z.of_nat i * Z.of_nat m + k) ;; do y <- aget Y (k * Z.of_nat m + Z.of_nat j) ;;
                 let s := nadd A (fst sC) (nmul A x y) in
                 do C <- aset (snd sC) (Z.of_nat i * Z.of_nat m + Z.of_nat j) s ;; Ok (s, C)) m 0 (d, C)) as (r & E & R1 & R2).
  - split; reflexivity.
  - intros k (s, C1) K (H1 & H2). cbn [fst snd] in H1, H2.
    assert (LC1 : length C1 = (m * m)%nat) by (subst C1; destruct (k =? 0); rewrite ?set_nth_length; exact LC).
    assert (B1 : (i * m + Z.to_nat k < m * m)%nat) by nia. assert (B2 : (Z.to_nat k * m + j < m * m)%nat) by nia.
    assert (B3 : (i * m + j < m * m)%nat) by nia.
    assert (I1 : Z.of_nat i * Z.of_nat m + k = Z.of_nat (i * m + Z.to_nat k)) by lia.
    assert (I2 : k * Z.of_nat m + Z.of_nat j = Z.of_nat (Z.to_nat k * m + j)) by nia.
    assert (I3 : Z.of_nat i * Z.of_nat m + Z.of_nat j = Z.of_nat (i * m + j)) by lia.
    rewrite I1, I2, I3. rewrite (get_ok d X), (get_ok d Y) by lia. cbn [bind fst snd]. rewrite put_ok by lia. cbn [bind].
    rewrite !Nat2Z.id. eexists. split; [reflexivity|]. cbn [fst snd].
    destruct (Z.eqb_spec (k + 1) 0); [lia|]. replace (Z.to_nat (k + 1)) with (S (Z.to_nat k)) by lia. cbn [dot].
    rewrite <- H1. split; [reflexivity|]. subst C1. destruct (k =? 0); [reflexivity|apply set_nth_twice].
  - rewrite E. cbn [bind]. rewrite R2. destruct (Z.eqb_spec (0 + Z.of_nat m) 0); [lia|].
    now replace (Z.to_nat (0 + Z.of_nat m)) with m by lia.
Qed.

(** rescaling multiplies all entries by 1e-140 some times and adjusts the exponent *)
Fixpoint shrink (c : nat) (v : T) : T := match c with O => v | S c => nmul A (shrink c v) (em140 A) end.
Lemma rescale_ok V e m : length V = (m * m)%nat -> exists V' c, rescale A V e m = Ok (V', e + 140 * Z.of_nat c) /\
  length V' = (m * m)%nat /\ forall t, (t < m * m)%nat -> nth t V' d = shrink c (nth t V d).
Proof.
  intro L. unfold rescale. cbn zeta.
  match goal with |- context[for_ _ _ ?f _] =>
    destruct (for_inv (fun _ s => exists c, snd s = e + 140 * Z.of_nat c /\ length (fst s) = (m * m)%nat /\
      forall t, (t < m * m)%nat -> nth t (fst s) d = shrink c (nth t V d)) f (m * m) 0 (V, e)) as (s & E & c & R1 & R2 & R3) end.
  - exists O. cbn [fst snd]. split; [lia|]. split; [exact L|]. reflexivity.
  - intros i (V1, e1) I (c & H1 & H2 & H3). cbn [fst snd] in *. rewrite (get_ok d) by lia. cbn [bind].
    destruct (ngt A _ _); [|eexists; split; [reflexivity|]; exists c; auto].
    destruct (flat_loop d (fun _ v => nmul A v (em140 A)) (fun j V => do v <- aget V j ;; aset V j (nmul A v (em140 A))) (m * m) V1 H2) as (V2 & -> & L2 & H4).
    + intros j C J LC. rewrite (get_ok d) by lia. cbn [bind]. rewrite put_ok by lia. reflexivity.
    + cbn [bind]. eexists. split; [reflexivity|]. exists (S c). cbn [fst snd]. split; [lia|]. split; [exact L2|].
      intros t Ht. rewrite H4, H3 by exact Ht. reflexivity.
  - exists (fst s), c. rewrite E. rewrite <- R1. destruct s. auto.
Qed.
Lemma copy_ok X V m : length X = (m * m)%nat -> length V = (m * m)%nat ->
  exists V', for_ (m * m) 0 (fun i V => do x <- aget X i ;; aset V i x) V = Ok V' /\ length V' = (m * m)%nat /\
    forall t, (t < m * m)%nat -> nth t V' d = nth t X d.
Proof.
  intros LX LV. apply (flat_loop d (fun t _ => nth t X d) (fun i V => do x <- aget X i ;; aset V i x) (m * m) V LV).
  intros i C I LC. rewrite (get_ok d) by lia. cbn [bind]. now rewrite put_ok by lia.
Qed.

Section Power.
Variables (m : nat) (X : list T) (eX : Z).
Hypothesis LX : length X = (m * m)%nat.
Variable P : Z -> list T -> Z -> Prop.
Definition same (V W : list T) : Prop := length V = (m * m)%nat /\ forall t, (t < m * m)%nat -> nth t V d = nth t W d.
Hypothesis P_ext : forall k V W e, same V W -> P k W e -> P k V e.
Hypothesis P_one : P 1 X eX.
Hypothesis P_square : forall k V e B, length V = (m * m)%nat -> P k V e -> product_of m V V B -> P (2 * k) B (2 * e).
Hypothesis P_times : forall k V e B, length V = (m * m)%nat -> P k V e -> product_of m X V B -> P (k + 1) B (eX + e).
Hypothesis P_rescale : forall k V e V' c, length V = (m * m)%nat -> length V' = (m * m)%nat -> P k V e ->
  (forall t, (t < m * m)%nat -> nth t V' d = shrink c (nth t V d)) -> P k V' (e + 140 * Z.of_nat c).
Lemma mPower_ok : forall fuel n V, 1 <= n < 2 ^ Z.of_nat fuel -> length V = (m * m)%nat ->
  exists V' e, mPower A fuel X eX V m n = Ok (V', e) /\ length V' = (m * m)%nat /\ P n V' e.
Proof.
  induction fuel as [|fuel IH]; intros n V N LV; [change (2 ^ Z.of_nat 0) with 1 in N; lia|]. cbn [mPower].
  destruct (Z.eqb_spec n 1) as [->|N1].
  - destruct (copy_ok X V m LX LV) as (V' & -> & LV' & H). cbn [bind]. exists V', eX. split; [reflexivity|]. split; [exact LV'|].
    apply P_ext with X; [split; auto|exact P_one].
  - rewrite Nat2Z.inj_succ, Z.pow_succ_r in N by lia.
    assert (N2 : 1 <= n / 2 < 2 ^ Z.of_nat fuel).
    { split; [apply Z.div_le_lower_bound; lia|apply Z.div_lt_upper_bound; lia]. }
    destruct (IH (n / 2) V N2 LV) as (V1 & e1 & -> & L1 & P1). cbn [bind].
    destruct (mMultiply_ok V1 V1 (repeat d (m * m)) m L1 L1 ltac:(apply repeat_length)) as (B & -> & HB). cbn [bind].
    pose proof (P_square _ _ _ _ L1 P1 HB) as PB.
    pose proof (Z.div_mod n 2 ltac:(lia)) as DM. pose proof (Z.mod_pos_bound n 2 ltac:(lia)).
    destruct (Z.eqb_spec (n mod 2) 0) as [M|M].
    + destruct (copy_ok B V1 m (proj1 HB) L1) as (V2 & -> & L2 & H2). cbn [bind fst snd].
      assert (P2 : P n V2 (2 * e1)). { replace n with (2 * (n / 2)) by lia. apply P_ext with B; [split; auto|exact PB]. }
      destruct (rescale_ok V2 (2 * e1) m L2) as (V3 & c & -> & L3 & H3). eexists. eexists. split; [reflexivity|]. split; [exact L3|].
      apply (P_rescale n V2 _ V3 c); auto.
    + destruct (mMultiply_ok X B V1 m LX (proj1 HB) L1) as (V2 & -> & HV2). cbn [bind fst snd].
      assert (P2 : P n V2 (eX + 2 * e1)). { pose proof (P_times _ B _ V2 (proj1 HB) PB HV2) as Q. now replace (2 * (n / 2) + 1) with n in Q by lia. }
      destruct (rescale_ok V2 (eX + 2 * e1) m (proj1 HV2)) as (V3 & c & -> & L3 & H3). eexists. eexists. split; [reflexivity|].
      split; [exact L3|]. apply (P_rescale n V2 _ V3 c); auto. apply HV2.
Qed.
End Power.
End Generic.
