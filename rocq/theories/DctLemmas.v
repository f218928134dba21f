(** The loops of the DCT test, and sums of cosines. *)
From Coq Require Import Lia Lra.
From Verif Require Import BaseLemmas KsLemmas3 OpermReal RunsArcs.
From Verif Require Export DctSpec.
Open Scope R_scope.

Lemma list_map {X} (d : X) (l : list X) f n : length l = n -> (forall i, (i < n)%nat -> nth i l d = f i) -> l = map f (seq 0 n).
Proof.
  intros L H. apply (nth_ext _ _ d d); [now rewrite map_length, seq_length|]. intros i I. rewrite L in I. rewrite H by exact I.
  rewrite (nth_indep _ d (f 0%nat)) by (now rewrite map_length, seq_length). rewrite map_nth, seq_nth by exact I. reflexivity.
Qed.
Lemma map_seq_nth {X} (d : X) f n i : (i < n)%nat -> nth i (map f (seq 0 n)) d = f i.
Proof. intro I. rewrite (nth_indep _ d (f 0%nat)) by (now rewrite map_length, seq_length). now rewrite map_nth, seq_nth. Qed.
(** a loop that fills an array in order *)
Lemma for_fill {X} (d : X) n (body : Z -> list X -> outcome (list X)) f init : length init = n ->
  (forall i out, (i < n)%nat -> length out = n -> nth i out d = nth i init d -> body (Z.of_nat i) out = Ok (set_nth out i (f i))) ->
  for_ n 0 body init = Ok (map f (seq 0 n)).
Proof.
  intros L H. destruct (for_inv (fun i out => length out = n /\ (forall k, (Z.of_nat k < i)%Z -> (k < n)%nat -> nth k out d = f k) /\ forall k, (i <= Z.of_nat k)%Z -> nth k out d = nth k init d) body n 0 init) as (out & E & LO & F & _).
  - split; [exact L|]. split; [intros; lia|reflexivity].
  - intros i out I (LO & F & G). exists (set_nth out (Z.to_nat i) (f (Z.to_nat i))). split.
    + rewrite <- (H (Z.to_nat i) out); [now rewrite Z2Nat.id by lia|lia|exact LO|apply G; lia].
    + split; [now rewrite set_nth_length|]. split; intros k K.
      * intro Kn. destruct (Nat.eq_dec k (Z.to_nat i)) as [->|N]; [apply nth_set_nth_eq; lia|]. rewrite nth_set_nth_ne by lia. apply F; lia.
      * rewrite nth_set_nth_ne by lia. apply G. lia.
  - rewrite E. f_equal. apply (list_map d); [exact LO|]. intros i I. apply F; lia.
Qed.
Lemma set_same {X} (l : list X) n a b : set_nth (set_nth l n a) n b = set_nth l n b.
Proof. revert n. induction l as [|x l IH]; intros [|n]; cbn; auto. f_equal. apply IH. Qed.
Lemma set_here {X} (d : X) l n : set_nth l n (nth n l d) = l.
Proof. revert n. induction l as [|x l IH]; intros [|n]; cbn; auto. f_equal. apply IH. Qed.
(** a loop that adds to one element *)
Lemma for_add n (body : Z -> list R -> outcome (list R)) i f out : (i < length out)%nat ->
  (forall j o, (j < n)%nat -> length o = length out -> body (Z.of_nat j) o = Ok (set_nth o i (nth i o 0 + f j))) ->
  for_ n 0 body out = Ok (set_nth out i (nth i out 0 + rsum n f)).
Proof.
  intros I H. destruct (for_inv (fun j o => o = set_nth out i (nth i out 0 + rsum (Z.to_nat j) f)) body n 0 out) as (o & E & F).
  - cbn [Z.to_nat rsum]. now rewrite Rplus_0_r, set_here.
  - intros j o J ->. eexists. split; [|reflexivity]. rewrite <- (Z2Nat.id j) at 1 by lia. rewrite H by (rewrite ?set_nth_length; lia).
    rewrite set_same, nth_set_nth_eq by exact I. replace (Z.to_nat (j + 1)) with (S (Z.to_nat j)) by lia. cbn [rsum]. now rewrite Rplus_assoc.
  - rewrite E, F, Z.add_0_l, Nat2Z.id. reflexivity.
Qed.
Ltac as_reals := match goal with |- @eq _ ?a ?b => change (@eq R a b) end.

Lemma nth_repeat_0 n i : nth i (repeat 0 n) 0 = 0.
Proof. revert i. induction n as [|n IH]; intros [|i]; cbn; auto. Qed.
Lemma fDCT2_ok l : l <> [] -> fDCT2 reals cos PI l (length l) = Ok (map (dct2 (length l) (word l)) (seq 0 (length l))).
Proof.
  intro NE. assert (P : 0 < INR (length l)) by (apply lt_0_INR; destruct l; [congruence|cbn; lia]).
  unfold fDCT2. apply (for_fill 0); [apply repeat_length|]. intros i out I L Z.
  rewrite (for_add _ _ i (fun j => word l j * cos (PI * (INR j + 1 / 2) * INR i / INR (length l)))).
  - rewrite Z. cbn [nint reals]. rewrite nth_repeat_0, Rplus_0_l. reflexivity.
  - lia.
  - intros j o J LO. rewrite (get_nat 0) by lia. cbn [bind]. rewrite (get_nat 0%N) by exact J. cbn [bind]. rewrite (put_nat (T := R)) by lia.
    do 2 f_equal. cbn [nadd nmul nint ndiv nlit reals]. unfold word. as_reals. f_equal. f_equal. f_equal. rewrite <- !INR_IZR_INZ. field. lra.
Qed.

(** ** the transform by way of the Fourier transform *)
Lemma rsum_pairs n f : rsum (2 * n) f = rsum n (fun j => f (2 * j)%nat + f (2 * j + 1)%nat).
Proof.
  induction n as [|n IH]; [reflexivity|]. replace (2 * S n)%nat with (S (S (2 * n))) by lia. cbn [rsum]. rewrite IH. replace (S (2 * n)) with (2 * n + 1)%nat by lia. ring.
Qed.
Lemma rsum_head n f : rsum (S n) f = f 0%nat + rsum n (fun k => f (S k)).
Proof. induction n as [|n IH]; [cbn; ring|]. cbn [rsum] in *. rewrite IH. ring. Qed.
Lemma rsum_rev n f : rsum n f = rsum n (fun k => f (n - 1 - k)%nat).
Proof.
  induction n as [|n IH]; [reflexivity|]. rewrite (rsum_head n (fun k => f (S n - 1 - k)%nat)). cbn [rsum]. rewrite IH. replace (S n - 1 - 0)%nat with n by lia.
  rewrite Rplus_comm. f_equal. apply rsum_ext. intros k K. f_equal. lia.
Qed.
(** the array handed to it *)
Definition mirrored (l : list N) (m : nat) : R :=
  if Nat.odd m then word l (if (m <? 2 * length l)%nat then m / 2 else (4 * length l - m) / 2)%nat else 0.
Definition odd_part (l : list N) (m : nat) : R := if Nat.odd m then word l (m / 2) else 0.
Lemma word_beyond l j : (length l <= j)%nat -> word l j = 0.
Proof. intro H. unfold word. now rewrite nth_overflow. Qed.
Lemma odd_double_1 i : Nat.odd (2 * i + 1) = true.
Proof. rewrite Nat.add_1_r, Nat.odd_succ. apply Nat.even_spec. now exists i. Qed.
Lemma odd_double i : Nat.odd (2 * i) = false.
Proof. rewrite <- Nat.negb_even. rewrite (proj2 (Nat.even_spec (2 * i))) by (now exists i). reflexivity. Qed.
Lemma half_odd i : ((2 * i + 1) / 2 = i)%nat.
Proof. replace (2 * i + 1)%nat with (1 + i * 2)%nat by lia. rewrite Nat.div_add by lia. reflexivity. Qed.
Lemma spread_ok l : exists d, for_ (length l) 0 (fun i d => do x <- aget l i ;; aset d (2 * i + 1) (IZR (Z.of_N x))) (repeat 0 (4 * length l)) = Ok d /\
  length d = (4 * length l)%nat /\ forall m, nth m d 0 = odd_part l m.
Proof.
  destruct (for_inv (fun i d => length d = (4 * length l)%nat /\ forall m, nth m d 0 = if (Z.of_nat m <? 2 * i)%Z then odd_part l m else 0)
    (fun i d => do x <- aget l i ;; aset d (2 * i + 1) (IZR (Z.of_N x))) (length l) 0 (repeat 0 (4 * length l))) as (d & E & L & F).
  - split; [apply repeat_length|]. intro m. rewrite nth_repeat_0. destruct (Z.ltb_spec (Z.of_nat m) (2 * 0)); [lia|reflexivity].
  - intros i d I (L & F). rewrite (get_ok 0%N) by lia. cbn [bind]. rewrite put_ok by lia. eexists. split; [reflexivity|]. split; [now rewrite set_nth_length|].
    intro m. replace (Z.to_nat (2 * i + 1)) with (2 * Z.to_nat i + 1)%nat by lia. destruct (Nat.eq_dec m (2 * Z.to_nat i + 1)) as [->|N].
    + rewrite nth_set_nth_eq by lia. replace (Z.of_nat (2 * Z.to_nat i + 1) <? 2 * (i + 1))%Z with true by lia. unfold odd_part. now rewrite odd_double_1, half_odd.
    + rewrite nth_set_nth_ne by lia. rewrite F. destruct (Z.ltb_spec (Z.of_nat m) (2 * i)); destruct (Z.ltb_spec (Z.of_nat m) (2 * (i + 1))); try lia; try reflexivity.
      replace m with (2 * Z.to_nat i)%nat by lia. unfold odd_part. now rewrite odd_double.
  - exists d. split; [exact E|]. split; [exact L|]. intro m. rewrite F. destruct (Z.ltb_spec (Z.of_nat m) (2 * (0 + Z.of_nat (length l)))); [reflexivity|].
    unfold odd_part. destruct (Nat.odd m); [|reflexivity]. rewrite word_beyond; [reflexivity|]. apply Nat.div_le_lower_bound; lia.
Qed.
Lemma mirror_ok l d : l <> [] -> length d = (4 * length l)%nat -> (forall m, nth m d 0 = odd_part l m) ->
  exists d', for_ (2 * length l - 1) 1 (fun i d => do x <- aget d i ;; aset d (4 * Z.of_nat (length l) - i) x) d = Ok d' /\
  length d' = (4 * length l)%nat /\ forall m, (m < 4 * length l)%nat -> nth m d' 0 = mirrored l m.
Proof.
  intros NE L F. set (n := length l) in *. assert (P : (1 <= n)%nat) by (unfold n; destruct l; [congruence|cbn; lia]).
  destruct (for_inv (fun i d => length d = (4 * n)%nat /\ forall m, (m < 4 * n)%nat -> nth m d 0 = if (4 * Z.of_nat n - i <? Z.of_nat m)%Z then odd_part l (4 * n - m) else odd_part l m)
    (fun i d => do x <- aget d i ;; aset d (4 * Z.of_nat n - i) x) (2 * n - 1) 1 d) as (d' & E & L' & F').
  - split; [exact L|]. intros m M. rewrite F. destruct (Z.ltb_spec (4 * Z.of_nat n - 1) (Z.of_nat m)); [lia|reflexivity].
  - intros i d0 I (L0 & F0). rewrite (get_ok 0) by lia. cbn [bind]. rewrite put_ok by lia. eexists. split; [reflexivity|]. split; [now rewrite set_nth_length|].
    intros m M. destruct (Nat.eq_dec m (Z.to_nat (4 * Z.of_nat n - i))) as [->|N].
    + rewrite nth_set_nth_eq by lia. rewrite F0 by lia. replace (4 * Z.of_nat n - i <? Z.of_nat (Z.to_nat i))%Z with false by lia.
      replace (4 * Z.of_nat n - (i + 1) <? Z.of_nat (Z.to_nat (4 * Z.of_nat n - i)))%Z with true by lia. f_equal. lia.
    + rewrite nth_set_nth_ne by lia. rewrite F0 by exact M. destruct (Z.ltb_spec (4 * Z.of_nat n - i) (Z.of_nat m)); destruct (Z.ltb_spec (4 * Z.of_nat n - (i + 1)) (Z.of_nat m)); try lia; reflexivity.
  - exists d'. split; [exact E|]. split; [exact L'|]. intros m M. rewrite F' by exact M. unfold odd_part, mirrored. fold n.
    destruct (Z.ltb_spec (4 * Z.of_nat n - (1 + Z.of_nat (2 * n - 1))) (Z.of_nat m)); destruct (Nat.ltb_spec m (2 * n)); try lia.
    + rewrite Nat.odd_sub by lia. replace (Nat.odd (4 * n)) with false by (replace (4 * n)%nat with (2 * (2 * n))%nat by lia; symmetry; apply odd_double). rewrite xorb_false_l. reflexivity.
    + reflexivity.
    + replace m with (2 * n)%nat by lia. now rewrite odd_double.
Qed.
Lemma cos_period_nat k x : cos (2 * PI * INR k - x) = cos x.
Proof. rewrite <- cos_neg. replace (- (2 * PI * INR k - x)) with (x - 2 * INR k * PI) by ring. rewrite <- (cos_period (x - 2 * INR k * PI) k). f_equal. ring. Qed.
Lemma fourier_sum l k : l <> [] -> rsum (4 * length l) (fun m => mirrored l m * cos (2 * PI * INR k * INR m / INR (4 * length l))) = 2 * dct2 (length l) (word l) k.
Proof.
  intro NE. set (n := length l). assert (P : 0 < INR n) by (apply lt_0_INR; unfold n; destruct l; [congruence|cbn; lia]).
  replace (4 * n)%nat with (2 * (2 * n))%nat by lia. rewrite rsum_pairs.
  rewrite (rsum_ext _ _ (fun j => (if (j <? n)%nat then word l j else word l (2 * n - 1 - j)) * cos (2 * PI * INR k * INR (2 * j + 1) / INR (2 * (2 * n))))).
  2:{ intros j J. unfold mirrored. rewrite odd_double, odd_double_1, half_odd. fold n. destruct (Nat.ltb_spec (2 * j + 1) (2 * n)); destruct (Nat.ltb_spec j n); try lia; [ring|].
    replace (4 * n - (2 * j + 1))%nat with (2 * (2 * n - 1 - j) + 1)%nat by lia. rewrite half_odd. ring. }
  replace (2 * n)%nat with (n + n)%nat at 1 by lia. rewrite rsum_split. match goal with |- _ + rsum n ?g = _ => rewrite (rsum_rev n g) end. rewrite rsum_plus. unfold dct2. rewrite rsum_scale.
  apply rsum_ext. intros j J. destruct (Nat.ltb_spec j n); [|lia]. destruct (Nat.ltb_spec (n + (n - 1 - j)) n); [lia|].
  replace (2 * n - 1 - (n + (n - 1 - j)))%nat with j by lia.
  replace (2 * PI * INR k * INR (2 * (n + (n - 1 - j)) + 1) / INR (2 * (2 * n))) with (2 * PI * INR k - PI * (INR j + 1 / 2) * INR k / INR n).
  - rewrite cos_period_nat. replace (2 * PI * INR k * INR (2 * j + 1) / INR (2 * (2 * n))) with (PI * (INR j + 1 / 2) * INR k / INR n); [ring|].
    rewrite plus_INR, !mult_INR. cbn [INR]. field. lra.
  - replace (2 * (n + (n - 1 - j)) + 1)%nat with (4 * n - (2 * j + 1))%nat by lia. rewrite minus_INR by lia. rewrite plus_INR, !mult_INR. cbn [INR]. field. lra.
Qed.
Lemma fDCT2_fft_ok fft l : transforms fft -> usable (length l) -> transform fft l = Ok (map (dct2 (length l) (word l)) (seq 0 (length l))).
Proof.
  intros TR U. unfold transform, fDCT2_fft. destruct (Nat.leb_spec (length l) 4) as [S4|S4].
  - apply fDCT2_ok. intros ->. destruct U as [U|(e & U)]; [cbn in U; lia|]. cbn [length] in U. pose proof (Nat.pow_nonzero 2 e). lia.
  - assert (NE : l <> []) by (intros ->; cbn in S4; lia). destruct U as [U|(e & U)]; [lia|]. change (num reals) with R. cbn [nint reals].
    destruct (spread_ok l) as (d & E & L & F). rewrite E. cbn [bind]. destruct (mirror_ok l d NE L F) as (d' & E' & L' & F'). rewrite E'. cbn [bind].
    destruct (TR (S (S e)) d') as (f & EF & LF & V); [rewrite L', U; cbn; lia|]. rewrite EF. cbn [bind].
    apply (for_fill 0); [apply repeat_length|]. intros i out I LO _. rewrite (get_nat 0) by lia. cbn [bind]. rewrite (put_nat (T := R)) by lia. do 2 f_equal.
    cbn [ndiv reals]. as_reals. rewrite V by lia. rewrite (rsum_ext _ _ (fun m => mirrored l m * cos (2 * PI * INR i * INR m / INR (4 * length l)))) by (intros m M; rewrite F' by lia; rewrite L'; reflexivity).
    rewrite L', fourier_sum by exact NE. field.
Qed.
