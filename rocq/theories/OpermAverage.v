(** Sums over all orderings. *)
From Coq Require Import Lia Bool.
From Verif Require Import BaseLemmas TallyLemmas KpermLemmas PropKperm.
From Verif Require Export OpermLemmas.
Open Scope nat_scope.

(** ** sums over lists *)
Definition lsum {A} (l : list A) (f : A -> Z) : Z := fold_right (fun x a => (f x + a)%Z) 0%Z l.
Lemma lsum_cons {A} x (l : list A) f : lsum (x :: l) f = (f x + lsum l f)%Z.
Proof. reflexivity. Qed.
Lemma lsum_app {A} (l m : list A) f : lsum (l ++ m) f = (lsum l f + lsum m f)%Z.
Proof. induction l as [|x l IH]; [reflexivity|]. cbn [app]. rewrite !lsum_cons, IH. lia. Qed.
Lemma lsum_ext {A} (l : list A) f g : (forall x, In x l -> f x = g x) -> lsum l f = lsum l g.
Proof. induction l as [|x l IH]; intro H; [reflexivity|]. rewrite !lsum_cons, (H x), IH; [reflexivity| |now left]. intros; apply H; now right. Qed.
Lemma lsum_plus {A} (l : list A) f g : lsum l (fun x => (f x + g x)%Z) = (lsum l f + lsum l g)%Z.
Proof. induction l as [|x l IH]; [reflexivity|]. rewrite !lsum_cons, IH. lia. Qed.
Lemma lsum_scale {A} (l : list A) c f : lsum l (fun x => (c * f x)%Z) = (c * lsum l f)%Z.
Proof. induction l as [|x l IH]; [cbn; lia|]. rewrite !lsum_cons, IH. lia. Qed.
Lemma lsum_scale_r {A} (l : list A) c f : lsum l (fun x => (f x * c)%Z) = (lsum l f * c)%Z.
Proof. induction l as [|x l IH]; [cbn; lia|]. rewrite !lsum_cons, IH. lia. Qed.
Lemma lsum_const {A} (l : list A) c : lsum l (fun _ => c) = (Z.of_nat (length l) * c)%Z.
Proof. induction l as [|x l IH]; [reflexivity|]. rewrite lsum_cons, IH. cbn [length]. lia. Qed.
Lemma lsum_swap {A B} (l : list A) (m : list B) f : lsum l (fun x => lsum m (f x)) = lsum m (fun y => lsum l (fun x => f x y)).
Proof.
  induction l as [|x l IH]; [cbn; rewrite (lsum_const m 0%Z); lia|]. rewrite lsum_cons, IH, <- lsum_plus. reflexivity.
Qed.
Lemma lsum_mul {A B} (l : list A) (m : list B) f g : (lsum l f * lsum m g)%Z = lsum l (fun x => lsum m (fun y => (f x * g y)%Z)).
Proof. rewrite <- lsum_scale_r. apply lsum_ext. intros x _. now rewrite lsum_scale. Qed.

Definition b2z (b : bool) : Z := if b then 1%Z else 0%Z.
Lemma b2z_and a b : (b2z a * b2z b)%Z = b2z (a && b).
Proof. now destruct a, b. Qed.
Lemma lsum_filter {A} (l : list A) b : lsum l (fun x => b2z (b x)) = Z.of_nat (length (filter b l)).
Proof. induction l as [|x l IH]; [reflexivity|]. rewrite lsum_cons, IH. cbn [filter]. destruct (b x); cbn [length b2z]; lia. Qed.
Lemma lsum_exactly {A} (l : list A) (Q P : A -> Prop) b k : NoDup l -> (forall x, In x l <-> Q x) ->
  (forall x, Q x -> (b x = true <-> P x)) -> exactly k (fun x => Q x /\ P x) -> lsum l (fun x => b2z (b x)) = Z.of_nat k.
Proof.
  intros N I B E. rewrite lsum_filter. f_equal. apply (exactly_length _ _ _ _ (NoDup_filter _ N)) with (2 := E).
  intro x. rewrite filter_In, I. split; intros (X & Y); (split; [exact X|]); now apply B.
Qed.

(** ** what the program counts *)
Definition hits (pi : list nat) (s i : nat) : bool := match window_number pi s with Ok z => Z.eqb z (Z.of_nat i) | _ => false end.
Lemma hits_iff pi s i : hits pi s i = true <-> window_number pi s = Ok (Z.of_nat i).
Proof.
  unfold hits. destruct (window_number pi s) as [z| | |]; try (split; discriminate). rewrite Z.eqb_eq. split; [now intros ->|]. intro E. now injection E.
Qed.
Lemma countp_lsum {A} (f : A -> bool) l : Z.of_N (countp f l) = lsum l (fun x => b2z (f x)).
Proof. induction l as [|x l IH]; [reflexivity|]. rewrite lsum_cons, <- IH. cbn [countp]. destruct (f x); cbn [b2z]; lia. Qed.
Lemma draw_window pi s : draw (fun t => N.of_nat (place pi t)) 5 s = map (fun k => N.of_nat (place pi (s + k))) (seq 0 5).
Proof. cbn [draw seq map]. repeat (f_equal; try lia). Qed.
Lemma count_hits pi (overlap : bool) n : exists counts c,
  operm_counts (fun t => N.of_nat (place pi t)) overlap n 0 = Ok (counts, c) /\
  length counts = 120 /\ forall i, i < 120 -> Z.of_N (nth i counts 0%N) = lsum (seq 0 n) (fun s => b2z (hits pi (if overlap then s else 5 + 5 * s) i)).
Proof.
  destruct (C55_operm5_counts (fun t => N.of_nat (place pi t)) overlap n 0) as (counts & E & L & (_ & T) & _).
  exists counts. eexists. split; [exact E|]. split; [exact L|]. intros i Hi. rewrite T by lia. rewrite countp_lsum.
  clear - Hi. induction (seq 0 n) as [|s l IH]; [reflexivity|]. cbn [map]. rewrite !lsum_cons, IH. f_equal. f_equal.
  unfold hits, window_number. rewrite !Nat.add_0_l. rewrite <- draw_window.
  rewrite (proj1 (ordering_at_ok _ _)). reflexivity.
Qed.

(** ** pairs of windows *)
(** 10! times the share of the orderings with pattern i at s and j at t *)
Definition weight (d : nat) : Z := match d with 0 => 30240 | 1 => 5040 | 2 => 720 | 3 => 90 | 4 => 10 | _ => 1 end.
Definition kz (s t i j : nat) : Z :=
  if Nat.eqb s t then (if Nat.eqb i j then 30240 else 0)%Z
  else if s <? t then (weight (t - s) * Z.of_nat (joint (t - s) i j))%Z
  else (weight (s - t) * Z.of_nat (joint (s - t) j i))%Z.
Lemma prof_far d l : 5 <= d -> prof (shared d) l = (length l, []).
Proof.
  intro D. induction l as [|x l IH]; [reflexivity|]. cbn [prof]. rewrite IH.
  replace (shared d x) with false; [reflexivity|]. symmetry. unfold shared. apply andb_false_iff. rewrite Nat.leb_gt, Nat.ltb_ge. lia.
Qed.
Lemma joint_far d i j : 5 <= d -> i < 120 -> j < 120 -> joint d i j = 252.
Proof.
  intros D Hi Hj. unfold joint. rewrite !prof_far, map_length by exact D.
  rewrite (ordering_length 5 (order i)), (ordering_length 5 (order j)) by now apply order_ok. reflexivity.
Qed.
Lemma rising_Z m k : (Z.of_nat (rising m k) * Z.of_nat (fact m) = Z.of_nat (fact (m + k)))%Z.
Proof. rewrite <- Nat2Z.inj_mul, rising_fact. reflexivity. Qed.
Lemma fact_Z n : (Z.of_nat (fact (S n)) = Z.of_nat (S n) * Z.of_nat (fact n))%Z.
Proof. rewrite <- Nat2Z.inj_mul. reflexivity. Qed.
Lemma rising_weight d n : 1 <= d -> span d <= n -> (3628800 * Z.of_nat (rising (span d) (n - span d)) = weight d * Z.of_nat (fact n))%Z.
Proof.
  intros D H. pose proof (rising_Z (span d) (n - span d)) as R. replace (span d + (n - span d)) with n in R by lia.
  assert (X : (weight d * Z.of_nat (fact (span d)) = 3628800)%Z).
  { unfold span. destruct d as [|[|[|[|[|d]]]]]; [lia| | | | |replace (Nat.min (S (S (S (S (S d))))) 5) with 5 by lia]; cbn [weight Nat.min Nat.add]; rewrite !fact_Z; reflexivity. }
  rewrite <- R, <- X. lia.
Qed.
Section All.
Variable m : nat.
Hypothesis Hb : (Z.of_nat m < 2 ^ 31)%Z.
Variable all : list (list nat).
Hypothesis Hnd : NoDup all.
Hypothesis Hall : forall pi, In pi all <-> ordering m pi.

Lemma one_sum s i : s + 5 <= m -> i < 120 -> (120 * lsum all (fun pi => b2z (hits pi s i)) = Z.of_nat (fact m))%Z.
Proof.
  intros Hs Hi. rewrite (lsum_exactly all _ (fun pi => window_number pi s = Ok (Z.of_nat i)) _ _ Hnd Hall (fun pi _ => hits_iff pi s i) (one_window m s i Hs Hb Hi)).
  pose proof (rising_Z 5 (m - 5)) as R. replace (5 + (m - 5)) with m in R by lia. change (Z.of_nat (fact 5)) with 120%Z in R. lia.
Qed.
Lemma two_sum s t i j : s + 5 <= m -> t + 5 <= m -> i < 120 -> j < 120 ->
  (3628800 * lsum all (fun pi => b2z (hits pi s i) * b2z (hits pi t j)) = kz s t i j * Z.of_nat (fact m))%Z.
Proof.
  intros Hs Ht Hi Hj. unfold kz. rewrite (lsum_ext all _ (fun pi => b2z (hits pi s i && hits pi t j))) by (intros; apply b2z_and).
  destruct (Nat.eqb_spec s t) as [->|Ne].
  - destruct (Nat.eqb_spec i j) as [->|Nij].
    + rewrite (lsum_ext all _ (fun pi => b2z (hits pi t j))) by (intros; now rewrite andb_diag).
      pose proof (one_sum t j Ht Hj). lia.
    + rewrite (lsum_ext all _ (fun _ => 0%Z)), lsum_const; [lia|]. intros pi _. destruct (hits pi t i) eqn:A, (hits pi t j) eqn:B; try reflexivity.
      apply hits_iff in A. apply hits_iff in B. rewrite A in B. injection B as B. lia.
  - destruct (Nat.ltb_spec s t) as [L|L].
    + assert (SP : span (t - s) <= m) by (unfold span; lia).
      rewrite (lsum_exactly all _ (fun pi => window_number pi s = Ok (Z.of_nat i) /\ window_number pi (s + (t - s)) = Ok (Z.of_nat j)) _ _ Hnd Hall) with (2 := two_windows m s (t - s) i j ltac:(lia) ltac:(lia) Hb Hi Hj).
      * rewrite Nat2Z.inj_mul. pose proof (rising_weight (t - s) m ltac:(lia) SP). nia.
      * intros pi _. rewrite andb_true_iff, !hits_iff. replace (s + (t - s)) with t by lia. reflexivity.
    + assert (SP : span (s - t) <= m) by (unfold span; lia).
      rewrite (lsum_exactly all _ (fun pi => window_number pi t = Ok (Z.of_nat j) /\ window_number pi (t + (s - t)) = Ok (Z.of_nat i)) _ _ Hnd Hall) with (2 := two_windows m t (s - t) j i ltac:(lia) ltac:(lia) Hb Hj Hi).
      * rewrite Nat2Z.inj_mul. pose proof (rising_weight (s - t) m ltac:(lia) SP). nia.
      * intros pi _. rewrite andb_true_iff, !hits_iff. replace (t + (s - t)) with s by lia. tauto.
Qed.
(** n windows, the one of round s at [st s] *)
Variable n : nat.
Variable st : nat -> nat.
Hypothesis Hst : forall s, s < n -> st s + 5 <= m.
Definition cnt (i : nat) (pi : list nat) : Z := lsum (seq 0 n) (fun s => b2z (hits pi (st s) i)).
Lemma mean_sum i : i < 120 -> (120 * lsum all (cnt i) = Z.of_nat n * Z.of_nat (fact m))%Z.
Proof.
  intro Hi. unfold cnt. rewrite lsum_swap, <- lsum_scale.
  rewrite (lsum_ext _ _ (fun _ => Z.of_nat (fact m))), lsum_const, seq_length; [reflexivity|].
  intros s Hs. apply in_seq in Hs. apply one_sum; [apply Hst; lia|exact Hi].
Qed.
Lemma product_sum i j : i < 120 -> j < 120 ->
  (3628800 * lsum all (fun pi => cnt i pi * cnt j pi) = lsum (seq 0 n) (fun s => lsum (seq 0 n) (fun t => kz (st s) (st t) i j)) * Z.of_nat (fact m))%Z.
Proof.
  intros Hi Hj. unfold cnt. rewrite (lsum_ext all _ (fun pi => lsum (seq 0 n) (fun s => lsum (seq 0 n) (fun t => b2z (hits pi (st s) i) * b2z (hits pi (st t) j))%Z))) by (intros; apply lsum_mul).
  rewrite lsum_swap, <- lsum_scale, <- lsum_scale_r. apply lsum_ext. intros s Hs. apply in_seq in Hs.
  rewrite lsum_swap, <- lsum_scale, <- lsum_scale_r. apply lsum_ext. intros t Ht. apply in_seq in Ht.
  apply two_sum; try assumption; apply Hst; lia.
Qed.
End All.
Lemma all_length m all : NoDup all -> (forall pi, In pi all <-> ordering m pi) -> length all = fact m.
Proof.
  intros Hnd Hall. apply (exactly_length _ _ (ordering m) all Hnd Hall).
  apply (exactly_iff _ _ (fun pi => ordering m pi /\ filter (fun _ => false) pi = [])).
  - intro pi. split; [tauto|]. intro O. split; [exact O|]. clear. induction pi; auto.
  - pose proof (restricted_count m (fun _ => false) [] (NoDup_nil _)) as R. cbn [length] in R.
    rewrite <- (Nat.mul_1_r (rising 0 (m - 0))) in R. change 1 with (fact 0) in R at 1. rewrite rising_fact in R. 
    replace (0 + (m - 0)) with m in R by lia. apply R. intro x. cbn. intuition discriminate.
Qed.

(** ** sums over a band *)
Section Band.
Variable f : nat -> nat -> Z.
Variables u v : nat -> Z.
Variable a : Z.
Hypothesis F0 : forall s, f s s = a.
Hypothesis Fu : forall s d, 1 <= d <= 4 -> f s (s + d) = u d.
Hypothesis Fv : forall s d, 1 <= d <= 4 -> f (s + d) s = v d.
Hypothesis Fz : forall s t, s + 5 <= t \/ t + 5 <= s -> f s t = 0%Z.
Lemma edge n g (w : nat -> Z) : 4 <= n -> (forall d, 1 <= d <= 4 -> g (n - d) = w d) -> (forall s, s + 5 <= n -> g s = 0%Z) ->
  lsum (seq 0 n) g = (w 1%nat + w 2%nat + w 3%nat + w 4%nat)%Z.
Proof.
  intros H W Z. replace n with ((n - 4) + 4) by lia. rewrite seq_app, lsum_app.
  rewrite (lsum_ext (seq 0 (n - 4)) g (fun _ => 0%Z)), lsum_const.
  2:{ intros s Hs. apply in_seq in Hs. apply Z. lia. }
  cbn [Nat.add seq]. rewrite !lsum_cons. cbn [lsum fold_right].
  rewrite <- (W 1), <- (W 2), <- (W 3), <- (W 4) by lia.
  replace (S (S (S (n - 4)))) with (n - 1) by lia. replace (S (S (n - 4))) with (n - 2) by lia. replace (S (n - 4)) with (n - 3) by lia. lia.
Qed.
Lemma band_sum n : 4 <= n -> lsum (seq 0 n) (fun s => lsum (seq 0 n) (f s)) =
  (Z.of_nat n * a + (Z.of_nat n - 1) * (u 1%nat + v 1%nat) + (Z.of_nat n - 2) * (u 2%nat + v 2%nat) + (Z.of_nat n - 3) * (u 3%nat + v 3%nat) + (Z.of_nat n - 4) * (u 4%nat + v 4%nat))%Z.
Proof.
  intro H. induction n as [|n IH]; [lia|]. destruct (Nat.eq_dec n 3) as [->|N3].
  - cbn [seq]. rewrite !lsum_cons. cbn [lsum fold_right]. rewrite !F0.
    pose proof (Fu 0 1 ltac:(lia)) as Eu01. cbn [Nat.add] in Eu01.
    pose proof (Fv 0 1 ltac:(lia)) as Ev01. cbn [Nat.add] in Ev01.
    pose proof (Fu 0 2 ltac:(lia)) as Eu02. cbn [Nat.add] in Eu02.
    pose proof (Fv 0 2 ltac:(lia)) as Ev02. cbn [Nat.add] in Ev02.
    pose proof (Fu 0 3 ltac:(lia)) as Eu03. cbn [Nat.add] in Eu03.
    pose proof (Fv 0 3 ltac:(lia)) as Ev03. cbn [Nat.add] in Ev03.
    pose proof (Fu 1 1 ltac:(lia)) as Eu11. cbn [Nat.add] in Eu11.
    pose proof (Fv 1 1 ltac:(lia)) as Ev11. cbn [Nat.add] in Ev11.
    pose proof (Fu 1 2 ltac:(lia)) as Eu12. cbn [Nat.add] in Eu12.
    pose proof (Fv 1 2 ltac:(lia)) as Ev12. cbn [Nat.add] in Ev12.
    pose proof (Fu 2 1 ltac:(lia)) as Eu21. cbn [Nat.add] in Eu21.
    pose proof (Fv 2 1 ltac:(lia)) as Ev21. cbn [Nat.add] in Ev21.
    rewrite Eu01, Ev01, Eu02, Ev02, Eu03, Ev03, Eu11, Ev11, Eu12, Ev12, Eu21, Ev21. lia.
  - rewrite seq_S, lsum_app, Nat.add_0_l. rewrite (lsum_ext (seq 0 n) _ (fun s => lsum (seq 0 n) (f s) + f s n)%Z).
    2:{ intros s _. rewrite lsum_app. cbn [lsum fold_right]. lia. }
    rewrite lsum_plus, IH by lia. rewrite !lsum_cons, lsum_app, lsum_cons. change (@lsum nat [] ?g) with 0%Z. rewrite F0.
    rewrite (edge n (fun s => f s n) u), (edge n (f n) v); try lia.
    + intros d Hd. rewrite <- (Fv (n - d) d) by lia. f_equal. lia.
    + intros s Hs. apply Fz. lia.
    + intros d Hd. rewrite <- (Fu (n - d) d) by lia. f_equal. lia.
    + intros s Hs. apply Fz. lia.
Qed.
End Band.

(** ** the covariances *)
(** 10!/2 times the covariance per window, and the correction at the ends *)
Definition lag (d i j : nat) : Z := (weight d * (Z.of_nat (joint d i j) + Z.of_nat (joint d j i)) - 504)%Z.
Definition covz (i j : nat) : Z := ((if Nat.eqb i j then 30240 else 0) - 252 + (lag 1 i j + lag 2 i j + lag 3 i j + lag 4 i j))%Z.
Definition endz (i j : nat) : Z := (lag 1 i j + 2 * lag 2 i j + 3 * lag 3 i j + 4 * lag 4 i j)%Z.
Lemma kz_sum n i j : 4 <= n -> i < 120 -> j < 120 ->
  lsum (seq 0 n) (fun s => lsum (seq 0 n) (fun t => kz s t i j)) = (252 * (Z.of_nat n * Z.of_nat n) + Z.of_nat n * covz i j - endz i j)%Z.
Proof.
  intros H Hi Hj. rewrite (lsum_ext _ _ (fun s => lsum (seq 0 n) (fun t => (kz s t i j - 252)%Z) + Z.of_nat n * 252)%Z).
  2:{ intros s _. rewrite <- (seq_length n 0) at 3. rewrite <- lsum_const, <- lsum_plus. apply lsum_ext. intros; lia. }
  rewrite lsum_plus, lsum_const, seq_length.
  rewrite (band_sum (fun s t => kz s t i j - 252)%Z (fun d => weight d * Z.of_nat (joint d i j) - 252)%Z (fun d => weight d * Z.of_nat (joint d j i) - 252)%Z ((if Nat.eqb i j then 30240 else 0) - 252)%Z); try exact H.
  - unfold covz, endz, lag. cbn [weight]. destruct (Nat.eqb i j); lia.
  - intro s. unfold kz. now rewrite Nat.eqb_refl.
  - intros s d Hd. unfold kz. destruct (Nat.eqb_spec s (s + d)); [lia|]. destruct (Nat.ltb_spec s (s + d)); [|lia]. now replace (s + d - s) with d by lia.
  - intros s d Hd. unfold kz. destruct (Nat.eqb_spec (s + d) s); [lia|]. destruct (Nat.ltb_spec (s + d) s); [lia|]. now replace (s + d - s) with d by lia.
  - intros s t D. unfold kz. destruct (Nat.eqb_spec s t); [lia|].
    assert (W : forall d, 5 <= d -> weight d = 1%Z) by (intros [|[|[|[|[|d]]]]] Hd; lia || reflexivity).
    destruct (Nat.ltb_spec s t); rewrite joint_far, W by lia; reflexivity.
Qed.
(** sum over all orderings of (120 c_i - n)(120 c_j - n) *)
Lemma covariance_sum m n st all i j : (Z.of_nat m < 2 ^ 31)%Z -> NoDup all -> (forall pi, In pi all <-> ordering m pi) -> (forall s, s < n -> st s + 5 <= m) -> i < 120 -> j < 120 ->
  (252 * lsum all (fun pi => (120 * cnt n st i pi - Z.of_nat n) * (120 * cnt n st j pi - Z.of_nat n)) =
    (lsum (seq 0 n) (fun s => lsum (seq 0 n) (fun t => kz (st s) (st t) i j)) - 252 * (Z.of_nat n * Z.of_nat n)) * Z.of_nat (length all))%Z.
Proof.
  intros Hb Hnd Hall Hst Hi Hj. pose proof (mean_sum m Hb all Hnd Hall n st Hst i Hi) as Mi. pose proof (mean_sum m Hb all Hnd Hall n st Hst j Hj) as Mj.
  pose proof (product_sum m Hb all Hnd Hall n st Hst i j Hi Hj) as P. rewrite <- (all_length m all Hnd Hall) in Mi, Mj, P.
  rewrite (lsum_ext all _ (fun pi => 14400 * (cnt n st i pi * cnt n st j pi) + (- (120 * Z.of_nat n)) * cnt n st i pi + (- (120 * Z.of_nat n)) * cnt n st j pi + Z.of_nat n * Z.of_nat n)%Z) by (intros; lia).
  rewrite !lsum_plus, !lsum_scale, lsum_const.
  set (K := lsum (seq 0 n) _) in *. set (A := lsum all (cnt n st i)) in *. set (B := lsum all (cnt n st j)) in *. set (G := lsum all _) in *. set (L := Z.of_nat (length all)) in *. set (z := Z.of_nat n) in *.
  clearbody K A B G L z. assert (Ha : (z * (120 * A) = z * (z * L))%Z) by now rewrite Mi. assert (Hc : (z * (120 * B) = z * (z * L))%Z) by now rewrite Mj. nia.
Qed.
(** disjoint windows *)
Lemma kz_apart n st i j : (forall s t, s < n -> t < n -> s <> t -> st s + 5 <= st t \/ st t + 5 <= st s) -> i < 120 -> j < 120 ->
  lsum (seq 0 n) (fun s => lsum (seq 0 n) (fun t => kz (st s) (st t) i j)) = (252 * (Z.of_nat n * Z.of_nat n) + Z.of_nat n * ((if Nat.eqb i j then 30240 else 0) - 252))%Z.
Proof.
  intros A Hi Hj. assert (W : forall d, 5 <= d -> weight d = 1%Z) by (intros [|[|[|[|[|d]]]]] Hd; lia || reflexivity).
  rewrite (lsum_ext _ _ (fun s => Z.of_nat n * 252 + ((if Nat.eqb i j then 30240 else 0) - 252))%Z).
  - rewrite lsum_const, seq_length. lia.
  - intros s Hs. apply in_seq in Hs. rewrite (lsum_ext _ _ (fun t => 252 + (if Nat.eqb t s then (if Nat.eqb i j then 30240 else 0) - 252 else 0))%Z).
    + rewrite lsum_plus, lsum_const, seq_length. f_equal. set (c := ((if Nat.eqb i j then 30240 else 0) - 252)%Z). clear - Hs.
      assert (X : forall a k, lsum (seq a k) (fun t => if Nat.eqb t s then c else 0%Z) = if ((a <=? s) && (s <? a + k))%nat then c else 0%Z).
      { intros a k. revert a. induction k as [|k IH]; intro a; cbn [seq].
        - destruct (Nat.leb_spec a s), (Nat.ltb_spec s (a + 0)); cbn; lia || reflexivity.
        - rewrite lsum_cons, IH. destruct (Nat.eqb_spec a s) as [->|Ne];
            repeat match goal with |- context [(?a <=? ?b)%nat] => destruct (Nat.leb_spec a b) | |- context [(?a <? ?b)%nat] => destruct (Nat.ltb_spec a b) end; cbn [andb]; lia. }
      rewrite X. destruct (Nat.leb_spec 0 s), (Nat.ltb_spec s (0 + n)); cbn [andb]; lia || reflexivity.
    + intros t Ht. apply in_seq in Ht. unfold kz. destruct (Nat.eqb_spec t s) as [->|Ne]; [rewrite Nat.eqb_refl; lia|].
      destruct (A s t ltac:(lia) ltac:(lia) ltac:(lia)) as [D|D].
      * destruct (Nat.eqb_spec (st s) (st t)); [lia|]. destruct (Nat.ltb_spec (st s) (st t)); [|lia]. rewrite joint_far, W by lia. reflexivity.
      * destruct (Nat.eqb_spec (st s) (st t)); [lia|]. destruct (Nat.ltb_spec (st s) (st t)); [lia|]. rewrite joint_far, W by lia. reflexivity.
Qed.
