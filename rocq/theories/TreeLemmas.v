From Coq Require Import FinFun.
From Verif Require Import BaseLemmas TallyLemmas MissingLemmas TreeModel TreeSpec.
Open Scope N_scope.

(** ** Rotation *)
Definition rot_defined (w n : N) : Prop := n <= w /\ n < 32 /\ w - n < 32.

Lemma land_ones' : forall a k, N.land (2 ^ k - 1) a = a mod 2 ^ k.
Proof. intros. rewrite N.land_comm, <- N.pred_sub, <- N.ones_equiv. apply N.land_ones. Qed.
Lemma rotl_ok : forall w x n, 1 <= w -> w <= 32 -> x < 2 ^ w -> rot_defined w n ->
  exists r, rotl w x n = Ok r /\ r < 2 ^ w /\ forall b, b < w -> N.testbit r ((b + n) mod w) = N.testbit x b.
Proof.
  intros w x n W1 W32 X (D1 & D2 & D3). unfold rotl.
  rewrite shl32_ok by exact D2. cbn [bind].
  assert (S : sub32 w n = w - n) by (apply sub32_small; [exact D1|]; eapply N.le_lt_trans; [exact W32|reflexivity]).
  rewrite S, shr32_ok by exact D3. cbn [bind]. eexists. split; [reflexivity|]. rewrite land_ones'. split; [apply N.mod_lt, N.pow_nonzero; discriminate|].
  intros b B. assert (M : (b + n) mod w < w) by (apply N.mod_lt; lia).
  rewrite testbit_mod, (proj2 (N.ltb_lt _ _)) by exact M. cbn [andb]. rewrite N.lor_spec, testbit_w32, testbit_shiftl, testbit_shiftr.
  assert (C : (b + n) mod w = if b + n <? w then b + n else b + n - w).
  { destruct (N.ltb_spec (b + n) w); [apply N.mod_small; assumption|]. symmetry. apply (N.mod_unique _ _ 1); lia. }
  rewrite C. clear C M. destruct (N.ltb_spec (b + n) w) as [L|L].
  - rewrite (proj2 (N.ltb_lt (b + n) 32)) by lia. rewrite (testbit_lt x w (b + n + (w - n))) by (assumption || lia). rewrite orb_false_r.
    replace (n <=? b + n) with true by (symmetry; apply N.leb_le; lia). cbn [andb]. f_equal. lia.
  - replace (b + n - w + (w - n)) with b by lia. destruct (N.leb_spec n (b + n - w)) as [Q|Q].
    + assert (b = w + (b + n - w - n)) by lia. exfalso. lia.
    + cbn [andb]. rewrite andb_false_r. reflexivity.
Qed.
Lemma rotl_bad : forall w x n, w <= 32 -> n < 2 ^ 32 -> ~ rot_defined w n -> exists why, rotl w x n = UB why.
Proof.
  intros w x n W N32 D. unfold rotl, shl32. destruct (N.ltb_spec n 32) as [L|L]; [|cbn [bind]; eauto]. cbn [bind].
  unfold shr32. destruct (N.ltb_spec (sub32 w n) 32) as [Q|Q]; [|cbn [bind]; eauto]. exfalso. apply D. clear D.
  destruct (N.le_gt_cases n w) as [H|H].
  - rewrite sub32_small in Q by (assumption || (eapply N.le_lt_trans; [exact W|reflexivity])). repeat split; assumption.
  - exfalso. unfold sub32, u32_of_Z in Q. replace ((Z.of_N w - Z.of_N n) mod 2 ^ 32)%Z with (Z.of_N w - Z.of_N n + 2 ^ 32)%Z in Q.
    2: { apply Z.mod_unique with (q := (-1)%Z); lia. }
    lia.
Qed.

(** ** Paths in the implicit tree *)
(** Node of height k: the 1-based index is an odd multiple of 2^k, below 2^L. *)
Definition node (L k : nat) (i : N) : Prop := exists a, i + 1 = 2 ^ N.of_nat k * (2 * a + 1) /\ i + 1 < 2 ^ N.of_nat L.

Lemma node_kids : forall L k i, (k < L)%nat -> node L (S k) i ->
  node L k (i + 2 ^ N.of_nat k) /\ node L k (i - 2 ^ N.of_nat k) /\ 2 ^ N.of_nat k <= i.
Proof.
  intros L k i KL (a & E & B). rewrite Nat2N.inj_succ, N.pow_succ_r' in E.
  assert (P : 1 <= 2 ^ N.of_nat k) by (apply N.lt_pred_le; apply N.neq_0_lt_0, N.pow_nonzero; discriminate).
  assert (EL : 2 ^ N.of_nat L = 2 ^ N.of_nat k * (2 * 2 ^ N.of_nat (L - k - 1))).
  { rewrite <- N.pow_succ_r', <- N.pow_add_r. f_equal. lia. }
  rewrite EL in B. set (p := 2 ^ N.of_nat k) in *. set (q := 2 ^ N.of_nat (L - k - 1)) in *.
  assert (B2 : (2 * a + 1) < q) by nia.
  unfold node. fold p. rewrite EL.
  split; [|split]; [exists (2 * a + 1)|exists (2 * a)|]; [split; nia|split; nia|nia].
Qed.
Lemma node_lt : forall L k i, node L k i -> i < 2 ^ N.of_nat L - 1.
Proof. intros L k i (a & E & B). lia. Qed.
Lemma leaf_even : forall L i, node L 0 i -> i mod 2 = 0.
Proof. intros L i (a & E & B). change (2 ^ N.of_nat 0) with 1 in E. replace i with (a * 2) by lia. apply N.mod_mul. discriminate. Qed.

(** ** dab_filltree: the array holds a search tree *)
Fixpoint rep (arr : list N) (k : nat) (i : N) (t : bst) : Prop :=
  match k with
  | O => True
  | S k =>
    match t with
    | Empty => nth (N.to_nat i) arr 0 = 0 /\ rep arr k (i + 2 ^ N.of_nat k) Empty /\ rep arr k (i - 2 ^ N.of_nat k) Empty
    | Fork l v r => nth (N.to_nat i) arr 0 = v /\ v <> 0 /\ rep arr k (i + 2 ^ N.of_nat k) r /\ rep arr k (i - 2 ^ N.of_nat k) l
    end
  end.
(** Outside the cells of the subtree at (k, i). *)
Definition outside (k : nat) (i p : N) : Prop := p + 2 ^ N.of_nat k <= i \/ i + 2 ^ N.of_nat k <= p.
Lemma pow_pos : forall k, 1 <= 2 ^ N.of_nat k.
Proof. intro k. apply N.lt_pred_le. apply N.neq_0_lt_0, N.pow_nonzero. discriminate. Qed.
Lemma pow_S : forall k, 2 ^ N.of_nat (S k) = 2 * 2 ^ N.of_nat k.
Proof. intro k. rewrite Nat2N.inj_succ. apply N.pow_succ_r'. Qed.
Lemma rep_set : forall k arr i t p x, outside k i p -> 2 ^ N.of_nat k <= i + 1 ->
  rep arr k i t -> rep (set_nth arr (N.to_nat p) x) k i t.
Proof.
  induction k as [|k IH]; intros arr i t p x O LE R; [exact I|]. unfold outside in O. rewrite pow_S in O, LE. pose proof (pow_pos k) as P.
  cbn [rep] in *. assert (NE : N.to_nat p <> N.to_nat i) by lia.
  assert (R1 : forall t, rep arr k (i + 2 ^ N.of_nat k) t -> rep (set_nth arr (N.to_nat p) x) k (i + 2 ^ N.of_nat k) t).
  { intros t' Q. apply IH; auto; unfold outside; lia. }
  assert (R2 : forall t, rep arr k (i - 2 ^ N.of_nat k) t -> rep (set_nth arr (N.to_nat p) x) k (i - 2 ^ N.of_nat k) t).
  { intros t' Q. apply IH; auto; unfold outside; lia. }
  destruct t as [|l v r].
  - destruct R as (A & B & C). rewrite nth_set_nth_ne by auto. auto.
  - destruct R as (A & V & B & C). rewrite nth_set_nth_ne by auto. auto.
Qed.

Lemma insert_rep : forall L, (L <= 31)%nat ->
  forall k f x arr i t, (k < L)%nat -> (k < f)%nat -> length arr = N.to_nat (2 ^ N.of_nat L) -> node L k i -> x <> 0 -> rep arr k i t ->
  match bst_add k x t with
  | inl t' => exists p, insert_loop f x arr i (2 ^ N.of_nat k / 2) = Ok (None, set_nth arr (N.to_nat p) x) /\
                rep (set_nth arr (N.to_nat p) x) k i t' /\ ~ outside k i p
  | inr p => insert_loop f x arr i (2 ^ N.of_nat k / 2) = Ok (Some (i + 1 - 2 ^ N.of_nat k + 2 * p), arr) /\ p < 2 ^ N.of_nat k
  end.
Proof.
  intros L L31. induction k as [|k IH]; intros f x arr i t KL KF LA NI X R; (destruct f as [|f]; [lia|]); cbn [insert_loop bst_add].
  - change (2 ^ N.of_nat 0 / 2) with 0. change (2 ^ N.of_nat 0) with 1. cbn [N.eqb]. split; [|lia]. do 3 f_equal. lia.
  - assert (D : 2 ^ N.of_nat (S k) / 2 = 2 ^ N.of_nat k) by (rewrite pow_S, N.mul_comm; apply N.div_mul; discriminate).
    rewrite D. rewrite (proj2 (N.eqb_neq _ 0)) by (apply N.pow_nonzero; discriminate).
    pose proof (node_lt _ _ _ NI) as NL. rewrite (aget_ok arr _ 0) by lia. cbn [bind].
    replace (Z.to_nat (Z.of_N i)) with (N.to_nat i) by lia.
    destruct (node_kids L k i ltac:(lia) NI) as (K1 & K2 & K3). pose proof (pow_pos k) as PP.
    assert (P2 : 2 * 2 ^ N.of_nat k <= i + 1). { destruct NI as (a & NI & _). rewrite pow_S in NI. nia. }
    destruct t as [|l v r]; cbn [rep] in R.
    + destruct R as (A & B & C). rewrite A. cbn [N.eqb]. rewrite aset_ok by lia. cbn [bind]. replace (Z.to_nat (Z.of_N i)) with (N.to_nat i) by lia.
      exists i. split; [reflexivity|]. split; [|unfold outside; rewrite pow_S; lia]. cbn [rep].
      split; [apply nth_set_nth_eq; lia|]. split; [exact X|]. split; apply rep_set; auto; unfold outside; lia.
    + destruct R as (A & V & B & C). rewrite A. rewrite (proj2 (N.eqb_neq v 0)) by exact V.
      assert (B32 : 2 ^ N.of_nat L < 2 ^ 32) by (apply N.pow_lt_mono_r; lia).
      assert (A1 : add32 i (2 ^ N.of_nat k) = i + 2 ^ N.of_nat k).
      { unfold add32. apply w32_small. pose proof (node_lt _ _ _ K1). lia. }
      assert (A2 : sub32 i (2 ^ N.of_nat k) = i - 2 ^ N.of_nat k) by (apply sub32_small; lia).
      rewrite A1, A2. destruct (v <? x).
      * specialize (IH f x arr (i + 2 ^ N.of_nat k) r ltac:(lia) ltac:(lia) LA K1 X B). destruct (bst_add k x r) as [r'|p].
        -- destruct IH as (p & E & R' & O). exists p. split; [exact E|]. assert (OL : outside k (i - 2 ^ N.of_nat k) p) by (unfold outside in *; lia).
           split; [|unfold outside in *; rewrite pow_S; lia]. cbn [rep]. split; [rewrite nth_set_nth_ne by (unfold outside in *; lia); exact A|]. split; [exact V|]. split; [exact R'|].
           apply rep_set; auto. lia.
        -- destruct IH as [E PB]. rewrite E, pow_S. split; [|lia]. do 3 f_equal. lia.
      * specialize (IH f x arr (i - 2 ^ N.of_nat k) l ltac:(lia) ltac:(lia) LA K2 X C). destruct (bst_add k x l) as [l'|p].
        -- destruct IH as (p & E & R' & O). exists p. split; [exact E|]. assert (OL : outside k (i + 2 ^ N.of_nat k) p) by (unfold outside in *; lia).
           split; [|unfold outside in *; rewrite pow_S; lia]. cbn [rep]. split; [rewrite nth_set_nth_ne by (unfold outside in *; lia); exact A|]. split; [exact V|]. split; [|exact R'].
           apply rep_set; auto. lia.
        -- destruct IH as [E PB]. rewrite E, pow_S. split; [|lia]. do 3 f_equal. lia.
Qed.

Lemma rep_empty : forall n k i, rep (repeat 0 n) k i Empty.
Proof. intros n. induction k; intro i; cbn [rep]; [exact I|]. rewrite nth_repeat. auto. Qed.
Fixpoint size (t : bst) : N := match t with Empty => 0 | Fork l _ r => size l + 1 + size r end.
Fixpoint fits (d : nat) (t : bst) {struct t} : Prop :=
  match t with Empty => True | Fork l _ r => match d with O => False | S d => fits d l /\ fits d r end end.
Lemma fits_size : forall d t, fits d t -> size t + 1 <= 2 ^ N.of_nat d.
Proof.
  induction d as [|d IH]; intros [|l v r] F; cbn [fits size] in *.
  - reflexivity.
  - destruct F.
  - pose proof (pow_pos (S d)). lia.
  - destruct F as [F1 F2]. apply IH in F1, F2. rewrite pow_S. lia.
Qed.
Lemma add_size : forall d x t, fits d t -> match bst_add d x t with inl t' => fits d t' /\ size t' = size t + 1 | inr _ => True end.
Proof.
  induction d as [|d IH]; intros x t F; cbn [bst_add]; [exact I|]. destruct t as [|l v r].
  { cbn. repeat split. }
  cbn [fits] in F. destruct F as [F1 F2].
  destruct (v <? x).
  - specialize (IH x r F2). destruct (bst_add d x r); [|exact I]. cbn [fits size]. destruct IH. split; [auto|lia].
  - specialize (IH x l F1). destruct (bst_add d x l); [|exact I]. cbn [fits size]. destruct IH. split; [auto|lia].
Qed.

Section Generator.
Variable g : nat -> N.
Variable w : N.
Hypothesis w1 : 1 <= w.
Hypothesis w32_ : w <= 32.
Hypothesis bounded : forall k, g k < 2 ^ w.
Hypothesis nonzero : forall k, g k <> 0.

Lemma rotated_nonzero : forall n x y, x < 2 ^ w -> Rotated w n x y -> x <> 0 -> y <> 0.
Proof.
  intros n x y X [_ T] NZ Z. apply NZ. apply N.bits_inj_0. intro b. destruct (N.ltb_spec b w) as [B|B]; [rewrite <- (T b B), Z; apply N.bits_0|apply (testbit_lt x w); assumption].
Qed.

Lemma tree_ok : forall rot, rot_defined w rot -> forall f arr t i c, length arr = 32%nat -> rep arr 4 15 t -> fits 4 t -> size t = i ->
  17 <= i + N.of_nat f ->
  exists xs y t' p, tree g f 32 15 w rot arr i c = Ok (Some (2 * p, i + N.of_nat (length xs) + 1), (c + length xs + 1)%nat) /\
    (forall k, (k < length (xs ++ [y]))%nat -> Rotated w rot (g (c + k)%nat) (nth k (xs ++ [y]) 0)) /\
    bst_grow 4 xs t = Some t' /\ bst_add 4 y t' = inr p /\ p < 16 /\ i + N.of_nat (length xs) <= 15.
Proof.
  intros rot D. induction f as [|f IH]; intros arr t i c LA R F SZ FU.
  - exfalso. apply fits_size in F. change (2 ^ N.of_nat 4) with 16 in F. lia.
  - cbn [tree]. destruct (rotl_ok w (g c) rot w1 w32_ (bounded c) D) as (x & E & XB & XT). rewrite E. cbn [bind].
    pose proof (fits_size 4 t F) as SL. change (2 ^ N.of_nat 4) with 16 in SL.
    change (32 * 2) with 64. rewrite (proj2 (N.ltb_ge 64 (i + 1))) by lia.
    unfold insert. change ((15 + 1) / 2) with (2 ^ N.of_nat 4 / 2).
    assert (RX : Rotated w rot (g c) x) by (split; assumption).
    pose proof (rotated_nonzero _ _ _ (bounded c) RX (nonzero c)) as XNZ.
    assert (N5 : node 5 4 15) by (exists 0; split; reflexivity).
    pose proof (insert_rep 5 ltac:(lia) 4 33 x arr 15 t ltac:(lia) ltac:(lia) LA N5 XNZ R) as G.
    pose proof (add_size 4 x t F) as AS. destruct (bst_add 4 x t) as [t'|p] eqn:EA.
    + destruct G as (p & G & R' & _). rewrite G. cbn [bind]. destruct AS as [F' S'].
      destruct (IH (set_nth arr (N.to_nat p) x) t' (i + 1) (S c)) as (xs & y & t2 & p2 & G2 & T2 & B2 & A2 & P2 & L2);
        [rewrite set_nth_length; exact LA|exact R'|exact F'|lia|lia|].
      exists (x :: xs), y, t2, p2. rewrite G2. cbn [length app]. split.
      { replace (i + N.of_nat (S (length xs)) + 1) with (i + 1 + N.of_nat (length xs) + 1) by lia. replace (c + S (length xs) + 1)%nat with (S c + length xs + 1)%nat by lia. reflexivity. }
      split.
      { intros [|k] K; [rewrite Nat.add_0_r; exact RX|]. cbn [nth]. replace (c + S k)%nat with (S c + k)%nat by lia. apply T2. lia. }
      split; [cbn [bst_grow]; rewrite EA; exact B2|]. split; [exact A2|]. split; [exact P2|]. lia.
    + destruct G as [G PB]. rewrite G. cbn [bind]. change (2 ^ N.of_nat 4) with 16 in *. exists [], x, t, p. cbn [length app].
      split.
      { replace (i + N.of_nat 0 + 1) with (i + 1) by lia. replace (c + 0 + 1)%nat with (S c) by lia. replace (15 + 1 - 16 + 2 * p) with (2 * p) by lia. reflexivity. }
      split.
      { intros [|k] K; [rewrite Nat.add_0_r; exact RX|cbn in K; lia]. }
      split; [reflexivity|]. split; [exact EA|]. split; [exact PB|]. lia.
Qed.
End Generator.
