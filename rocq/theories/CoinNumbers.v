(** The chances of the second tree-filling test as fractions, by computation. *)
From Coq Require Import List NArith ZArith Reals Lia Lra.
From Verif Require Import OpermReal TreeStatModel CoinSpec CoinLaw.
Import ListNotations.
Open Scope R_scope.

(** ** Binomial convolution of a list of integers with itself *)
Fixpoint next_row (x : Z) (l : list Z) : list Z := match l with [] => [x] | y :: l => (x + y)%Z :: next_row y l end.
Fixpoint half_dot (n : nat) (a b c : list Z) : Z :=
  match a, b, c with
  | x :: a, y :: b, z :: c =>
    match n with O => x * (y * z) | S O => 2 * (x * (y * z)) | S (S n) => 2 * (x * (y * z)) + half_dot n a b c end%Z
  | _, _, _ => 0%Z
  end.
Definition cv (n : nat) (row l : list Z) : Z := half_dot n row l (rev (firstn (S n) l)).
Fixpoint cvs (fuel n : nat) (row l : list Z) : list Z :=
  match fuel with O => [] | S f => cv n row l :: cvs f (S n) (next_row 0 row) l end.
(** Numbers of ways for 0, 1, ..., 128 descents into an unmarked tree of h+1 levels to find room. *)
Fixpoint Tlist (h : nat) : list Z :=
  match h with
  | O => 1%Z :: 1%Z :: repeat 0%Z 127
  | S h => 1%Z :: map (fun x => (2 ^ Z.of_nat (S h) * x)%Z) (cvs 128 0 [1%Z] (Tlist h))
  end.
Definition Alist : list Z := cvs 129 0 [1%Z] (Tlist 5).

Lemma half_dot_ok : forall n a b c, (n < length a)%nat -> (n < length b)%nat -> (n < length c)%nat ->
  (forall k, (k <= n)%nat -> nth k a 0%Z * (nth k b 0%Z * nth k c 0%Z) = nth (n - k) a 0%Z * (nth (n - k) b 0%Z * nth (n - k) c 0%Z))%Z ->
  IZR (half_dot n a b c) = rsum (S n) (fun k => IZR (nth k a 0%Z * (nth k b 0%Z * nth k c 0%Z))%Z).
Proof.
  induction n as [n IH] using lt_wf_ind. intros a b c LA LB LC S1.
  destruct a as [|x a]; [inversion LA|]. destruct b as [|y b]; [inversion LB|]. destruct c as [|z c]; [inversion LC|]. cbn [length] in *.
  destruct n as [|[|n]]; cbn [half_dot].
  - cbn [rsum nth]. ring.
  - pose proof (S1 0%nat ltac:(lia)) as E. cbn [rsum]. cbn [Nat.sub] in E. rewrite <- E. cbn [nth]. rewrite mult_IZR. ring.
  - rewrite rsum_first. change (rsum (S (S n)) (fun k => IZR (nth (S k) (x :: a) 0%Z * (nth (S k) (y :: b) 0%Z * nth (S k) (z :: c) 0%Z)))) with
      (rsum (S n) (fun k => IZR (nth k a 0%Z * (nth k b 0%Z * nth k c 0%Z))%Z) + IZR (nth (S (S n)) (x :: a) 0%Z * (nth (S (S n)) (y :: b) 0%Z * nth (S (S n)) (z :: c) 0%Z))).
    pose proof (S1 0%nat ltac:(lia)) as E. cbn [Nat.sub] in E. rewrite <- E. cbn [nth]. rewrite plus_IZR, mult_IZR, <- IH; try lia; [ring|].
    intros k K. pose proof (S1 (S k) ltac:(lia)) as Q. cbn [nth] in Q. rewrite Q. replace (S (S n) - S k)%nat with (S (n - k)) by lia. reflexivity.
Qed.

Definition row_ok (n : nat) (row : list Z) : Prop := length row = S n /\ forall k, nth k row 0%Z = Z.of_nat (binom n k).
Lemma next_row_ok n row : row_ok n row -> row_ok (S n) (next_row 0 row).
Proof.
  intros [L E]. assert (G : forall row x, length (next_row x row) = S (length row) /\ nth 0 (next_row x row) 0%Z = (x + nth 0 row 0%Z)%Z /\ forall k, nth (S k) (next_row x row) 0%Z = (nth k row 0%Z + nth (S k) row 0%Z)%Z).
  { clear. induction row as [|y row IH]; intro x; cbn [next_row length].
    - split; [reflexivity|]. split; [cbn; lia|]. intros [|k]; reflexivity.
    - destruct (IH y) as (A & B & C). split; [rewrite A; reflexivity|]. split; [reflexivity|]. intros [|k]; cbn [nth]; [rewrite B; reflexivity|apply C]. }
  destruct (G row 0%Z) as (A & B & C). split; [rewrite A, L; reflexivity|]. intros [|k].
  - rewrite B, E. destruct n; reflexivity.
  - rewrite C, !E. cbn [binom]. rewrite Nat2Z.inj_add. reflexivity.
Qed.
Lemma binom_top n : binom n n = 1%nat.
Proof. induction n as [|n IH]; [reflexivity|]. cbn [binom]. rewrite IH, binom_over by lia. reflexivity. Qed.
Lemma binom_0 n : binom n 0 = 1%nat.
Proof. destruct n; reflexivity. Qed.
Lemma binom_sym : forall n k, (k <= n)%nat -> binom n (n - k) = binom n k.
Proof.
  induction n as [|n IH]; intros k K; [destruct k; [reflexivity|lia]|]. destruct k as [|k].
  - rewrite Nat.sub_0_r, binom_top, binom_0. reflexivity.
  - change (S n - S k)%nat with (n - k)%nat. destruct (Nat.eq_dec k n) as [->|N].
    + rewrite Nat.sub_diag, binom_top, binom_0. reflexivity.
    + replace (n - k)%nat with (S (n - S k)) by lia. cbn [binom]. rewrite (IH (S k)) by lia. replace (S (n - S k)) with (n - k)%nat by lia. rewrite (IH k) by lia. lia.
Qed.
Lemma nth_firstn_lt {A} (d : A) : forall n k l, (k < n)%nat -> nth k (firstn n l) d = nth k l d.
Proof. induction n as [|n IH]; intros k l H; [lia|]. destruct l as [|x l]; [reflexivity|]. destruct k as [|k]; [reflexivity|]. cbn. apply IH. lia. Qed.
Lemma rev_first (l : list Z) n k : (n < length l)%nat -> (k <= n)%nat -> nth k (rev (firstn (S n) l)) 0%Z = nth (n - k) l 0%Z.
Proof.
  intros L K. assert (F : length (firstn (S n) l) = S n) by (rewrite firstn_length; lia). rewrite rev_nth by lia. rewrite F, nth_firstn_lt by lia. f_equal.
Qed.
Lemma cv_ok n row l : row_ok n row -> (n < length l)%nat -> IZR (cv n row l) = conv n (fun k => IZR (nth k l 0%Z)) (fun k => IZR (nth k l 0%Z)).
Proof.
  intros [LR R] L. unfold cv. assert (F : length (rev (firstn (S n) l)) = S n) by (rewrite rev_length, firstn_length; lia).
  rewrite half_dot_ok; try lia.
  - unfold conv. apply rsum_ext. intros k K. rewrite R, rev_first by lia. rewrite !mult_IZR, <- INR_IZR_INZ. reflexivity.
  - intros k K. rewrite !R, !rev_first by lia. rewrite binom_sym by lia. replace (n - (n - k))%nat with k by lia. ring.
Qed.
Lemma cvs_ok : forall f n row l, row_ok n row -> (n + f <= length l)%nat -> length (cvs f n row l) = f /\
  forall k, (k < f)%nat -> IZR (nth k (cvs f n row l) 0%Z) = conv (n + k) (fun k => IZR (nth k l 0%Z)) (fun k => IZR (nth k l 0%Z)).
Proof.
  induction f as [|f IH]; intros n row l R L; cbn [cvs length]; [split; [reflexivity|intros; lia]|].
  destruct (IH (S n) _ l (next_row_ok n row R) ltac:(lia)) as [LE Q]. split; [rewrite LE; reflexivity|]. intros [|k] K; cbn [nth].
  - rewrite Nat.add_0_r. apply cv_ok; [exact R|lia].
  - rewrite Q by lia. f_equal. lia.
Qed.
Lemma row0 : row_ok 0 [1%Z].
Proof. split; [reflexivity|]. intros [|[|k]]; reflexivity. Qed.
Lemma Tlist_length h : length (Tlist h) = 129%nat.
Proof.
  destruct h; [reflexivity|]. cbn [Tlist length]. rewrite map_length. f_equal; reflexivity.
Qed.
Lemma conv_scaled n (F : nat -> R) x : x <> 0 -> conv n (fun k => F k / x ^ k) (fun k => F k / x ^ k) = conv n F F / x ^ n.
Proof.
  intro X. unfold conv. unfold Rdiv. rewrite Rmult_comm, rsum_scale. apply rsum_ext. intros k K.
  assert (E : x ^ n = x ^ k * x ^ (n - k)) by (rewrite <- pow_add; f_equal; lia). rewrite E, Rinv_mult. ring.
Qed.
Lemma pow_pow2 h n : (2 ^ h) ^ n = 2 ^ (h * n).
Proof. rewrite pow_mult. reflexivity. Qed.
Lemma conv_ext_le n F G F' G' : (forall k, (k <= n)%nat -> F k = F' k) -> (forall k, (k <= n)%nat -> G k = G' k) -> conv n F G = conv n F' G'.
Proof. intros A B. unfold conv. apply rsum_ext. intros k K. rewrite A, B by lia. reflexivity. Qed.
Lemma stays_T : forall h n, (n <= 128)%nat -> stays n (S h) Blank = IZR (nth n (Tlist h) 0%Z) / (2 ^ h) ^ n.
Proof.
  induction h as [|h IH]; intros n L.
  - rewrite pow_O, pow1. destruct n as [|[|n]]; [cbn; field|cbn; field|]. cbn [Tlist nth]. rewrite nth_repeat. cbn. field.
  - destruct n as [|n]; [cbn; field|].
    change (stays (S n) (S (S h)) Blank) with (stays n (S (S h)) (Marked Blank Blank)). rewrite stays_conv.
    rewrite (conv_ext_le n _ _ (fun k => IZR (nth k (Tlist h) 0%Z) / (2 ^ h) ^ k) (fun k => IZR (nth k (Tlist h) 0%Z) / (2 ^ h) ^ k)) by (intros; apply IH; lia).
    rewrite (conv_scaled n (fun k => IZR (nth k (Tlist h) 0%Z))) by (apply pow_nonzero; lra).
    destruct (cvs_ok 128 0 [1%Z] (Tlist h) row0 ltac:(rewrite Tlist_length; lia)) as [LE Q]. specialize (Q n ltac:(lia)). cbn [Nat.add] in Q. rewrite <- Q.
    cbn [Tlist nth]. rewrite (nth_indep (map _ _) 0%Z ((2 ^ Z.of_nat (S h) * 0)%Z)) by (rewrite map_length, LE; lia).
    rewrite (map_nth (fun x => (2 ^ Z.of_nat (S h) * x)%Z)), mult_IZR, <- pow_IZR. generalize (IZR (nth n (cvs 128 0 [1%Z] (Tlist h)) 0%Z)). intro y.
    change (IZR 2) with 2. cbn [pow]. rewrite Rpow_mult_distr. field. repeat split; apply pow_nonzero; try apply pow_nonzero; lra.
Qed.
Lemma stays_A n : (n <= 128)%nat -> stays n 7 (Marked Blank Blank) = IZR (nth n Alist 0%Z) / 64 ^ n.
Proof.
  intro L. rewrite stays_conv.
  rewrite (conv_ext_le n _ _ (fun k => IZR (nth k (Tlist 5) 0%Z) / (2 ^ 5) ^ k) (fun k => IZR (nth k (Tlist 5) 0%Z) / (2 ^ 5) ^ k)) by (intros; apply stays_T; lia).
  rewrite (conv_scaled n (fun k => IZR (nth k (Tlist 5) 0%Z))) by (apply pow_nonzero; lra).
  destruct (cvs_ok 129 0 [1%Z] (Tlist 5) row0 ltac:(rewrite Tlist_length; lia)) as [LE Q]. specialize (Q n ltac:(lia)). cbn [Nat.add] in Q. rewrite <- Q.
  unfold Alist. replace 64 with (2 ^ 5 * 2) by ring. rewrite Rpow_mult_distr. field. split; apply pow_nonzero; lra.
Qed.

(** ** The table *)
Fixpoint right2 (p : Z) (A : list Z) (t : list (Z * Z)) : bool :=
  match t with
  | [] => true
  | (m, e) :: t =>
    match A with
    | [] => false
    | a :: A => let d := (64 * a - nth 0 A 0%Z)%Z in
      (0 <=? e)%Z && (Z.abs (m * (64 * p) - d * 10 ^ e) * 10 ^ 15 <=? 4 * d * 10 ^ e)%Z && right2 (64 * p) A t
    end
  end.
Lemma table2_right : right2 1 Alist target2 = true.
Proof. vm_cast_no_check (eq_refl true). Qed.
Lemma right2_ok : forall t A i p, right2 p A t = true -> IZR p = 64 ^ i -> forall k, (k < length t)%nat ->
  let law := IZR (nth k A 0%Z) / 64 ^ (i + k) - IZR (nth (S k) A 0%Z) / 64 ^ (i + S k) in
  Rabs (IZR (fst (nth k t (0, 0)%Z)) / 10 ^ Z.to_nat (snd (nth k t (0, 0)%Z)) - law) <= 4 / 10 ^ 15 * law.
Proof.
  induction t as [|[m e] t IH]; intros A i p H P k K; [inversion K|]. cbn [right2] in H. destruct A as [|a A]; [discriminate|].
  apply andb_prop in H. destruct H as [H Hr]. apply andb_prop in H. destruct H as [He H]. apply Z.leb_le in H, He.
  assert (P' : IZR (64 * p) = 64 ^ S i) by (rewrite mult_IZR, P; cbn [pow]; reflexivity).
  destruct k as [|k].
  - intro law. cbn [nth fst snd].
    set (d := (64 * a - nth 0 A 0%Z)%Z) in *. set (E := 10 ^ Z.to_nat e).
    assert (EE : IZR (10 ^ e) = E). { unfold E. rewrite <- (Z2Nat.id e) at 1 by exact He. rewrite <- pow_IZR. reflexivity. }
    assert (Epos : 0 < E) by (apply pow_lt; lra). assert (Ppos : 0 < 64 ^ S i) by (apply pow_lt; lra). assert (P0 : 0 < 64 ^ i) by (apply pow_lt; lra).
    assert (LAW : law = IZR d / 64 ^ S i). { unfold law, d. rewrite Nat.add_0_r. replace (i + 1)%nat with (S i) by lia. rewrite minus_IZR, mult_IZR. cbn [nth pow]. field. lra. }
    rewrite LAW. apply IZR_le in H. rewrite !mult_IZR, abs_IZR, minus_IZR, !mult_IZR, EE in H. change (IZR 64 * IZR p) with (64 * IZR p) in H. rewrite P in H.
    change (64 * 64 ^ i) with (64 ^ S i) in H. change (IZR (10 ^ 15)) with 1000000000000000 in H. replace (10 ^ 15) with 1000000000000000 by ring.
    revert H Ppos Epos. clear. generalize (64 ^ S i) E. clear E. intros q E H2 Ppos Epos.
    replace (IZR m / E - IZR d / q) with ((IZR m * q - IZR d * E) * / (E * q)) by (field; lra).
    rewrite Rabs_mult, (Rabs_pos_eq (/ (E * q))) by (left; apply Rinv_0_lt_compat; nra).
    apply Rmult_le_reg_r with (1000000000000000 * (E * q)); [nra|].
    replace (Rabs (IZR m * q - IZR d * E) * / (E * q) * (1000000000000000 * (E * q))) with (Rabs (IZR m * q - IZR d * E) * 1000000000000000) by (field; lra).
    replace (4 / 1000000000000000 * (IZR d / q) * (1000000000000000 * (E * q))) with (4 * IZR d * E) by (field; lra). exact H2.
  - intro law. unfold law. clear law. specialize (IH A (S i) (64 * p)%Z Hr P' k ltac:(cbn in K; lia)). cbn [nth]. replace (i + S k)%nat with (S i + k)%nat by lia. replace (i + S (S k))%nat with (S i + S k)%nat by lia. exact IH.
Qed.
Lemma table2_law k : (k < 128)%nat ->
  let law := stays k 7 (Marked Blank Blank) - stays (S k) 7 (Marked Blank Blank) in
  Rabs (IZR (fst (nth k target2 (0, 0)%Z)) / 10 ^ Z.to_nat (snd (nth k target2 (0, 0)%Z)) - law) <= 4 / 10 ^ 15 * law.
Proof.
  intro K. rewrite !stays_A by lia. pose proof (right2_ok target2 Alist 0 1 table2_right eq_refl k ltac:(exact K)) as H. exact H.
Qed.
