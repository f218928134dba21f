(** The numbers of the orderings of five, and the numbers of orderings with two
    given windows. *)
From Coq Require Import Lia Bool.
From Verif Require Import BaseLemmas KpermLemmas.
From Verif Require Export OpermMerge.
Open Scope nat_scope.

(** the ordering of five whose number is i *)
Definition orders : list (list nat) := 
[
  [1;2;3;4;0]; [2;1;3;4;0]; [2;3;1;4;0]; [3;2;1;4;0]; [1;3;2;4;0]; [3;1;2;4;0]; [3;2;4;1;0]; [2;3;4;1;0]; [2;4;3;1;0]; [4;2;3;1;0];
  [3;4;2;1;0]; [4;3;2;1;0]; [1;3;4;2;0]; [3;1;4;2;0]; [3;4;1;2;0]; [4;3;1;2;0]; [1;4;3;2;0]; [4;1;3;2;0]; [1;2;4;3;0]; [2;1;4;3;0];
  [2;4;1;3;0]; [4;2;1;3;0]; [1;4;2;3;0]; [4;1;2;3;0]; [4;2;3;0;1]; [2;4;3;0;1]; [2;3;4;0;1]; [3;2;4;0;1]; [4;3;2;0;1]; [3;4;2;0;1];
  [3;2;0;4;1]; [2;3;0;4;1]; [2;0;3;4;1]; [0;2;3;4;1]; [3;0;2;4;1]; [0;3;2;4;1]; [4;3;0;2;1]; [3;4;0;2;1]; [3;0;4;2;1]; [0;3;4;2;1];
  [4;0;3;2;1]; [0;4;3;2;1]; [4;2;0;3;1]; [2;4;0;3;1]; [2;0;4;3;1]; [0;2;4;3;1]; [4;0;2;3;1]; [0;4;2;3;1]; [1;4;3;0;2]; [4;1;3;0;2];
  [4;3;1;0;2]; [3;4;1;0;2]; [1;3;4;0;2]; [3;1;4;0;2]; [3;4;0;1;2]; [4;3;0;1;2]; [4;0;3;1;2]; [0;4;3;1;2]; [3;0;4;1;2]; [0;3;4;1;2];
  [1;3;0;4;2]; [3;1;0;4;2]; [3;0;1;4;2]; [0;3;1;4;2]; [1;0;3;4;2]; [0;1;3;4;2]; [1;4;0;3;2]; [4;1;0;3;2]; [4;0;1;3;2]; [0;4;1;3;2];
  [1;0;4;3;2]; [0;1;4;3;2]; [1;2;4;0;3]; [2;1;4;0;3]; [2;4;1;0;3]; [4;2;1;0;3]; [1;4;2;0;3]; [4;1;2;0;3]; [4;2;0;1;3]; [2;4;0;1;3];
  [2;0;4;1;3]; [0;2;4;1;3]; [4;0;2;1;3]; [0;4;2;1;3]; [1;4;0;2;3]; [4;1;0;2;3]; [4;0;1;2;3]; [0;4;1;2;3]; [1;0;4;2;3]; [0;1;4;2;3];
  [1;2;0;4;3]; [2;1;0;4;3]; [2;0;1;4;3]; [0;2;1;4;3]; [1;0;2;4;3]; [0;1;2;4;3]; [1;2;3;0;4]; [2;1;3;0;4]; [2;3;1;0;4]; [3;2;1;0;4];
  [1;3;2;0;4]; [3;1;2;0;4]; [3;2;0;1;4]; [2;3;0;1;4]; [2;0;3;1;4]; [0;2;3;1;4]; [3;0;2;1;4]; [0;3;2;1;4]; [1;3;0;2;4]; [3;1;0;2;4];
  [3;0;1;2;4]; [0;3;1;2;4]; [1;0;3;2;4]; [0;1;3;2;4]; [1;2;0;3;4]; [2;1;0;3;4]; [2;0;1;3;4]; [0;2;1;3;4]; [1;0;2;3;4]; [0;1;2;3;4]]
.
Definition order (i : nat) : list nat := nth i orders [].

Fixpoint nodupn (l : list nat) : bool :=
  match l with [] => true | x :: r => negb (existsb (Nat.eqb x) r) && nodupn r end.
Lemma nodupn_ok : forall l, nodupn l = true -> NoDup l.
Proof.
  induction l as [|x l IH]; intro H; [constructor|]. cbn in H. apply andb_true_iff in H. destruct H as (A & B). constructor; [|auto].
  intro I. apply negb_true_iff in A. enough (existsb (Nat.eqb x) l = true) by congruence. apply existsb_exists. exists x. split; [exact I|apply Nat.eqb_refl].
Qed.
Definition order_okb (p : list nat) : bool := Nat.eqb (length p) 5 && forallb (fun x => x <? 5) p && nodupn p.
Lemma order_okb_ok p : order_okb p = true -> ordering 5 p.
Proof.
  unfold order_okb. rewrite !andb_true_iff. intros ((A & B) & C). unfold ordering. apply NoDup_Permutation_bis.
  - now apply nodupn_ok.
  - rewrite seq_length. apply Nat.eqb_eq in A. lia.
  - intros x X. apply in_seq. rewrite forallb_forall in B. specialize (B x X). apply Nat.ltb_lt in B. lia.
Qed.
Definition number_is (p : list nat) (i : nat) : bool := match window_number p 0 with Ok z => Z.eqb z (Z.of_nat i) | _ => false end.
Lemma orders_check : forallb (fun i => order_okb (order i) && number_is (order i) i) (seq 0 120) = true.
Proof. vm_compute. reflexivity. Qed.
Lemma order_ok i : i < 120 -> ordering 5 (order i) /\ window_number (order i) 0 = Ok (Z.of_nat i).
Proof.
  intro H. pose proof orders_check as C. rewrite forallb_forall in C. specialize (C i (proj2 (in_seq 120 0 i) ltac:(lia))).
  apply andb_true_iff in C. destruct C as (A & B). split; [now apply order_okb_ok|]. unfold number_is in B.
  destruct (window_number (order i) 0) as [z| | |]; try discriminate. apply Z.eqb_eq in B. now subst.
Qed.
Lemma ordering5_count : exactly 120 (ordering 5).
Proof.
  apply (exactly_iff _ _ (fun pi => Permutation pi (seq 0 5 ++ []) /\ filter (fun _ => false) pi = [])).
  - intro pi. rewrite app_nil_r. unfold ordering. split; [now intros (A & _)|]. intro A. split; [exact A|]. clear. induction pi; auto.
  - apply (exactly_restricted (fun _ => false) [] (NoDup_nil _) (fun _ (F : In _ []) => match F with end) (seq 0 5)); [|auto].
    rewrite app_nil_r. apply seq_NoDup.
Qed.
Lemma order_complete p : ordering 5 p -> exists i, i < 120 /\ p = order i.
Proof.
  intro H. destruct ordering5_count as (l & N & I & L).
  assert (incl l (map order (seq 0 120))).
  { apply NoDup_length_incl.
    - apply (NoDup_map_inv (fun p => match window_number p 0 with Ok z => Z.to_nat z | _ => 0 end)). rewrite map_map.
      rewrite (map_ext_in _ (fun i => i)); [rewrite map_id; apply seq_NoDup|].
      intros i Hi. apply in_seq in Hi. rewrite (proj2 (order_ok i ltac:(lia))). apply Nat2Z.id.
    - rewrite map_length, seq_length. lia.
    - intros q Q. apply in_map_iff in Q. destruct Q as (i & <- & Hi). apply in_seq in Hi. apply I. now apply order_ok. }
  apply I in H. apply H0 in H. apply in_map_iff in H. destruct H as (i & E & Hi). apply in_seq in Hi. exists i. split; [lia|congruence].
Qed.

(** ** places *)
Lemma place_le pi x : place pi x <= length pi.
Proof. induction pi as [|y r IH]; cbn; [lia|]. destruct (Nat.eqb y x); lia. Qed.
Lemma place_inj pi a b : In a pi -> In b pi -> place pi a = place pi b -> a = b.
Proof.
  induction pi as [|y r IH]; [contradiction|]. cbn. intros A B. destruct (Nat.eqb_spec y a), (Nat.eqb_spec y b); try congruence; try discriminate.
  intro E. injection E as E. apply IH; [destruct A|destruct B|]; tauto.
Qed.
Lemma place_filter (f : nat -> bool) pi a b : In a pi -> In b pi -> f a = true -> f b = true ->
  (place pi a <= place pi b <-> place (filter f pi) a <= place (filter f pi) b).
Proof.
  intros A B Fa Fb. induction pi as [|y r IH]; [contradiction|]. cbn [place filter].
  destruct (Nat.eqb_spec y a) as [->|Na].
  { rewrite Fa. cbn [place]. rewrite Nat.eqb_refl. split; intros _; lia. }
  destruct (Nat.eqb_spec y b) as [->|Nb].
  { rewrite Fb. cbn [place]. rewrite Nat.eqb_refl. destruct (Nat.eqb_spec b a) as [E|_]; [congruence|]. lia. }
  specialize (IH ltac:(destruct A; tauto) ltac:(destruct B; tauto)).
  destruct (f y); [|lia]. cbn [place]. destruct (Nat.eqb_spec y a); [tauto|]. destruct (Nat.eqb_spec y b); [tauto|]. lia.
Qed.
Lemma place_shift s p x : place (map (Nat.add s) p) (s + x) = place p x.
Proof.
  induction p as [|y r IH]; [reflexivity|]. cbn [map place]. rewrite IH.
  destruct (Nat.eqb_spec (s + y) (s + x)), (Nat.eqb_spec y x); try lia; reflexivity.
Qed.
Lemma window_number_loop pi s : (Z.of_nat (length pi) < 2 ^ 31)%Z ->
  window_number pi s = kp_loop 4 (map (fun k => Z.of_nat (place pi (s + k))) [0; 1; 2; 3; 4]) 0.
Proof.
  intro B. unfold window_number. rewrite (proj1 (kperm_ok (map (fun k => N.of_nat (place pi (s + k))) (seq 0 5)) 0%N eq_refl ltac:(lia))). f_equal.
  assert (S32 : forall x, s32 (N.of_nat (place pi x)) = Z.of_nat (place pi x)).
  { intro x. pose proof (place_le pi x). unfold s32. replace (Z.of_N (N.of_nat (place pi x)) <? 2 ^ 31)%Z with true; [lia|].
    symmetry. apply Z.ltb_lt. lia. }
  cbn [map]. unfold seen. cbn [seq map]. rewrite <- !S32. reflexivity.
Qed.

Definition inw (s x : nat) : bool := (s <=? x) && (x <? s + 5).
Lemma inw_iff s x : inw s x = true <-> s <= x < s + 5.
Proof. unfold inw. rewrite andb_true_iff, Nat.leb_le, Nat.ltb_lt. reflexivity. Qed.
Lemma ordering_in n pi x : ordering n pi -> (In x pi <-> x < n).
Proof. intro H. unfold ordering in H. rewrite H, in_seq. lia. Qed.
Lemma ordering_nodup n pi : ordering n pi -> NoDup pi.
Proof. intro H. unfold ordering in H. rewrite H. apply seq_NoDup. Qed.
Lemma ordering_length n pi : ordering n pi -> length pi = n.
Proof. intro H. unfold ordering in H. rewrite H. apply seq_length. Qed.
Lemma window_rel n pi s : ordering n pi -> s + 5 <= n -> (Z.of_nat n < 2 ^ 31)%Z ->
  exists p, ordering 5 p /\ filter (inw s) pi = map (Nat.add s) p /\ window_number pi s = window_number p 0.
Proof.
  intros O B H. exists (map (fun x => x - s) (filter (inw s) pi)).
  assert (E : filter (inw s) pi = map (Nat.add s) (map (fun x => x - s) (filter (inw s) pi))).
  { rewrite map_map. rewrite <- (map_id (filter (inw s) pi)) at 1. apply map_ext_in. intros x X. apply filter_In in X. destruct X as (_ & X). apply inw_iff in X. lia. }
  set (p := map (fun x => x - s) (filter (inw s) pi)) in *.
  assert (P : ordering 5 p).
  { unfold ordering. apply NoDup_Permutation; [|apply seq_NoDup|].
    - apply (NoDup_map_inv (Nat.add s)). rewrite <- E. apply NoDup_filter. now apply (ordering_nodup n).
    - intro x. rewrite in_seq. transitivity (In (s + x) (map (Nat.add s) p)).
      + split; [apply in_map|]. intro X. apply in_map_iff in X. destruct X as (y & Y & X). replace x with y by lia. exact X.
      + rewrite <- E, filter_In, inw_iff, (ordering_in n) by exact O. lia. }
  split; [exact P|]. split; [exact E|].
  rewrite !window_number_loop by (rewrite ?(ordering_length n pi O), ?(ordering_length 5 p P); lia).
  apply loop_alike; [|cbn [length map]; lia]. split; [reflexivity|].
  assert (G : forall i j, i < 5 -> j < 5 -> (place pi (s + i) <= place pi (s + j) <-> place p (0 + i) <= place p (0 + j))).
  { intros i j Hi Hj. rewrite (place_filter (inw s)); [| | |apply inw_iff; lia|apply inw_iff; lia]; try (apply (ordering_in n); [exact O|lia]).
    rewrite E, !place_shift. reflexivity. }
  intros i j Hi Hj. cbn [length map] in Hi, Hj.
  assert (K : forall q t k, k < 5 -> nth k (map (fun k => Z.of_nat (place q (t + k))) [0; 1; 2; 3; 4]) 0%Z = Z.of_nat (place q (t + k)))
    by (intros q t k Hk; do 5 (destruct k as [|k]; [reflexivity|]); lia).
  rewrite !K by assumption. specialize (G i j Hi Hj). apply eq_true_iff_eq. rewrite !Z.leb_le. lia.
Qed.
Lemma window_iff n pi s i : ordering n pi -> s + 5 <= n -> (Z.of_nat n < 2 ^ 31)%Z -> i < 120 ->
  (window_number pi s = Ok (Z.of_nat i) <-> filter (inw s) pi = map (Nat.add s) (order i)).
Proof.
  intros O B H Hi. destruct (window_rel n pi s O B H) as (p & P & -> & ->). destruct (order_complete p P) as (k & Hk & ->).
  rewrite (proj2 (order_ok k Hk)). split; intro E.
  - injection E as E. apply Nat2Z.inj in E. now subst.
  - assert (X : order k = order i).
    { clear - E. revert E. generalize (order i). generalize (order k). induction l as [|a l IH]; intros [|b m] E; try discriminate; [reflexivity|].
      cbn in E. injection E as E1 E2. f_equal; [lia|auto]. }
    rewrite <- (proj2 (order_ok k Hk)), X. now apply order_ok.
Qed.
Lemma window_range n pi s : ordering n pi -> s + 5 <= n -> (Z.of_nat n < 2 ^ 31)%Z ->
  exists i, i < 120 /\ window_number pi s = Ok (Z.of_nat i).
Proof.
  intros O B H. destruct (window_rel n pi s O B H) as (p & P & _ & ->). destruct (order_complete p P) as (k & Hk & ->).
  exists k. split; [exact Hk|]. now apply order_ok.
Qed.

(** ** two windows *)
(** the number of orders of 5+d (d<5) or ten positions with the two windows *)
Definition shared (d : nat) (x : nat) : bool := (d <=? x) && (x <? 5).
Definition joint (d i j : nat) : nat := pways (prof (shared d) (order i)) (prof (shared d) (map (Nat.add d) (order j))).
Definition span (d : nat) : nat := 5 + Nat.min d 5.

Lemma prof_shift (f g : nat -> bool) s l : (forall x, In x l -> f (s + x) = g x) ->
  prof f (map (Nat.add s) l) = (fst (prof g l), map (fun xg => (s + fst xg, snd xg)) (snd (prof g l))).
Proof.
  induction l as [|x l IH]; intro H; [reflexivity|]. cbn [map prof]. rewrite IH by (intros; apply H; now right).
  rewrite (H x) by now left. destruct (prof g l) as (h, r). cbn [fst snd]. destruct (g x); reflexivity.
Qed.
Lemma ways_shift s r : forall g h q, ways g (map (fun xg => (s + fst xg, snd xg)) r) h (map (fun xg => (s + fst xg, snd xg)) q) = ways g r h q.
Proof.
  induction r as [|(x, g') r IH]; intros g h [|(y, h') q]; cbn [ways map fst snd]; try reflexivity.
  rewrite IH. destruct (Nat.eqb_spec (s + x) (s + y)), (Nat.eqb_spec x y); try lia; reflexivity.
Qed.

Lemma nodup_app {A} (a b : list A) : NoDup a -> NoDup b -> (forall x, In x a -> In x b -> False) -> NoDup (a ++ b).
Proof.
  intros Na Nb D. induction Na as [|x a X Na IH]; [exact Nb|]. cbn. constructor.
  - rewrite in_app_iff. intros [Y|Y]; [auto|]. apply (D x); [now left|exact Y].
  - apply IH. intros y Y. apply D. now right.
Qed.
(** the orderings of n numbers that restrict to a given order *)
Lemma restricted_count n (f : nat -> bool) L : NoDup L -> (forall x, In x L <-> x < n /\ f x = true) ->
  exactly (rising (length L) (n - length L)) (fun pi => ordering n pi /\ filter f pi = L).
Proof.
  intros N M. set (outs := filter (fun x => negb (f x)) (seq 0 n)).
  assert (IO : forall x, In x outs <-> x < n /\ f x = false) by (intro x; unfold outs; rewrite filter_In, in_seq, negb_true_iff; intuition lia).
  assert (NO : NoDup (outs ++ L)).
  { apply nodup_app; [apply NoDup_filter, seq_NoDup|exact N|]. intros x X Y. apply IO in X. apply M in Y. destruct X, Y. congruence. }
  assert (P : Permutation (outs ++ L) (seq 0 n)).
  { apply NoDup_Permutation; [exact NO|apply seq_NoDup|]. intro x. rewrite in_app_iff, IO, M, in_seq. destruct (f x); intuition lia. }
  replace (n - length L) with (length outs).
  2:{ apply Permutation_length in P. rewrite app_length, seq_length in P. lia. }
  apply (exactly_iff _ _ (fun pi => Permutation pi (outs ++ L) /\ filter f pi = L)).
  - intro pi. unfold ordering. rewrite P. reflexivity.
  - apply exactly_restricted; [exact N| |exact NO|]; intros x X; [now apply M|now apply IO].
Qed.
Lemma order_in i x : i < 120 -> (In x (order i) <-> x < 5).
Proof. intro H. apply ordering_in. now apply order_ok. Qed.
Lemma shifted_in s i x : i < 120 -> (In x (map (Nat.add s) (order i)) <-> s <= x < s + 5).
Proof.
  intro H. rewrite in_map_iff. split.
  - intros (y & <- & Y). apply (order_in i y H) in Y. lia.
  - intro B. exists (x - s). split; [lia|]. apply order_in; [exact H|lia].
Qed.
Lemma shifted_nodup s i : i < 120 -> NoDup (map (Nat.add s) (order i)).
Proof. intro H. apply FinFun.Injective_map_NoDup; [intros a b E; lia|]. apply (ordering_nodup 5). now apply order_ok. Qed.
Lemma one_window n s i : s + 5 <= n -> (Z.of_nat n < 2 ^ 31)%Z -> i < 120 ->
  exactly (rising 5 (n - 5)) (fun pi => ordering n pi /\ window_number pi s = Ok (Z.of_nat i)).
Proof.
  intros B H Hi. apply (exactly_iff _ _ (fun pi => ordering n pi /\ filter (inw s) pi = map (Nat.add s) (order i))).
  - intro pi. split; intros (O & X); (split; [exact O|]); apply (window_iff n); assumption.
  - assert (L : length (map (Nat.add s) (order i)) = 5) by (rewrite map_length; apply ordering_length; now apply order_ok).
    rewrite <- L at 1 2. apply restricted_count; [now apply shifted_nodup|].
    intro x. rewrite shifted_in, inw_iff by exact Hi. lia.
Qed.

Lemma merge_nodup (w1 w2 : nat -> bool) (L : list nat) : NoDup (filter w1 L) -> NoDup (filter w2 L) -> (forall x, In x L -> w1 x || w2 x = true) -> NoDup L.
Proof.
  induction L as [|x L IH]; intros A B C; [constructor|]. cbn [filter] in A, B.
  pose proof (C x (or_introl eq_refl)) as X. constructor.
  - intro I. destruct (w1 x) eqn:E1.
    + apply NoDup_cons_iff in A. destruct A as (A & _). apply A. apply filter_In. auto.
    + cbn in X. rewrite X in B. apply NoDup_cons_iff in B. destruct B as (B & _). apply B. apply filter_In. auto.
  - apply IH; [| |intros y Y; apply C; now right].
    + destruct (w1 x); [now apply NoDup_cons_iff in A|exact A].
    + destruct (w2 x); [now apply NoDup_cons_iff in B|exact B].
Qed.
Lemma filter_filter (f g : nat -> bool) l : (forall x, f x = true -> g x = true) -> filter f (filter g l) = filter f l.
Proof.
  intro H. induction l as [|x l IH]; [reflexivity|]. cbn [filter]. destruct (g x) eqn:G; cbn [filter].
  - rewrite IH. reflexivity.
  - rewrite IH. destruct (f x) eqn:F; [|reflexivity]. rewrite (H x F) in G. discriminate.
Qed.
Lemma joint_shift s d i j : 
  pways (prof (sh (inw s) (inw (s + d))) (map (Nat.add s) (order i))) (prof (sh (inw s) (inw (s + d))) (map (Nat.add (s + d)) (order j))) = joint d i j.
Proof.
  unfold joint, pways. assert (E : map (Nat.add (s + d)) (order j) = map (Nat.add s) (map (Nat.add d) (order j))) by (rewrite map_map; apply map_ext; intro; lia).
  assert (F : forall x, sh (inw s) (inw (s + d)) (s + x) = shared d x && (x <? d + 5)).
  { intro x. unfold sh, inw, shared. apply eq_true_iff_eq. rewrite !andb_true_iff, !Nat.leb_le, !Nat.ltb_lt. lia. }
  assert (G : forall x, sh (inw s) (inw (s + d)) (s + x) = shared d x).
  { intro x. rewrite F. unfold shared. apply eq_true_iff_eq. rewrite !andb_true_iff, !Nat.leb_le, !Nat.ltb_lt. lia. }
  rewrite E, !(prof_shift _ (shared d) s) by (intros; apply G). cbn [fst snd]. apply ways_shift.
Qed.
Lemma two_windows n s d i j : 1 <= d -> s + d + 5 <= n -> (Z.of_nat n < 2 ^ 31)%Z -> i < 120 -> j < 120 ->
  exactly (joint d i j * rising (span d) (n - span d))
    (fun pi => ordering n pi /\ window_number pi s = Ok (Z.of_nat i) /\ window_number pi (s + d) = Ok (Z.of_nat j)).
Proof.
  intros D B H Hi Hj. set (w1 := inw s). set (w2 := inw (s + d)). set (Is := map (Nat.add s) (order i)). set (Js := map (Nat.add (s + d)) (order j)).
  apply (exactly_iff _ _ (fun pi => exists L, merge w1 w2 Is Js L /\ (ordering n pi /\ filter (fun x => w1 x || w2 x) pi = L))).
  - intro pi. assert (F1 : filter w1 (filter (fun x => w1 x || w2 x) pi) = filter w1 pi) by (apply filter_filter; intros x ->; reflexivity).
    assert (F2 : filter w2 (filter (fun x => w1 x || w2 x) pi) = filter w2 pi) by (apply filter_filter; intros x ->; apply orb_true_r).
    split.
    + intros (L & (M1 & M2 & _) & O & <-). split; [exact O|]. split; (apply (window_iff n); [exact O|lia|assumption..|]); [rewrite F1 in M1; exact M1|rewrite F2 in M2; exact M2].
    + intros (O & X & Y). exists (filter (fun x => w1 x || w2 x) pi). split; [|auto].
      apply (window_iff n) in X; [|assumption|lia|assumption..]. apply (window_iff n) in Y; [|assumption..].
      split; [now rewrite F1|]. split; [now rewrite F2|]. intros x I. apply filter_In in I. tauto.
  - apply exactly_fibers.
    + intros a a' b (_ & <-) (_ & <-). reflexivity.
    + rewrite <- (joint_shift s d i j). apply (merge_count w1 w2 (length Is + length Js) Is Js); [lia| |];
        intros x X; apply inw_iff; apply (shifted_in _ _ x Hi) in X || apply (shifted_in _ _ x Hj) in X; exact X.
    + intros L (M1 & M2 & M3).
      assert (N : NoDup L) by (apply (merge_nodup w1 w2); [rewrite M1; now apply shifted_nodup|rewrite M2; now apply shifted_nodup|exact M3]).
      assert (IL : forall x, In x L <-> w1 x || w2 x = true).
      { intro x. split; [apply M3|]. intro X. apply orb_true_iff in X. destruct X as [X|X].
        - assert (In x (filter w1 L)) by (rewrite M1; apply shifted_in; [exact Hi|now apply inw_iff]). now apply filter_In in H0.
        - assert (In x (filter w2 L)) by (rewrite M2; apply shifted_in; [exact Hj|now apply inw_iff]). now apply filter_In in H0. }
      assert (LL : length L = span d).
      { assert (P : Permutation L (seq s 5 ++ seq (Nat.max (s + 5) (s + d)) (Nat.min d 5))).
        { apply NoDup_Permutation; [exact N| |].
          - apply nodup_app; [apply seq_NoDup..|]. intros x. rewrite !in_seq. lia.
          - intro x. rewrite IL, orb_true_iff, in_app_iff, !in_seq. unfold w1, w2. rewrite !inw_iff. lia. }
        rewrite P, app_length, !seq_length. reflexivity. }
      rewrite <- LL. apply restricted_count; [exact N|]. intro x. rewrite IL. unfold w1, w2. rewrite !orb_true_iff, !inw_iff. lia.
Qed.
