(** C95: superkiss produces the sequence of its design. *)
From Verif Require Import GensModel GensSpec GensLemmas LinearLemmas.
Open Scope N_scope.

(** The carry that enters position [i] of a refill. *)
Fixpoint carry_at (q : list N) (c : N) (i : nat) : N :=
  match i, q with
  | S i, v :: q => carry_at q (w32 (N.shiftr (w64 (w64 (7010176 * v) + c)) 32)) i
  | _, _ => c
  end.
Lemma carry_0 q c : carry_at q c 0 = c. Proof. destruct q; reflexivity. Qed.
Lemma sk_word v c : v < 2 ^ 32 -> c < 2 ^ 32 ->
  let t := w64 (w64 (7010176 * v) + c) in
  7010176 * v + c = w32 (N.shiftr t 32) * 2 ^ 32 + (2 ^ 32 - 1 - w32 (2 ^ 64 - 1 - t)) /\
  w32 (N.shiftr t 32) < 2 ^ 32 /\ w32 (2 ^ 64 - 1 - t) < 2 ^ 32.
Proof.
  intros Hv Hc. assert (B : 7010176 * v + c < 2 ^ 56) by (change (2 ^ 32) with 4294967296 in *; change (2 ^ 56) with 72057594037927936; lia).
  cbn zeta. rewrite (w64_small (7010176 * v)) by (change (2 ^ 64) with 18446744073709551616; change (2 ^ 56) with 72057594037927936 in B; lia).
  rewrite w64_small by (change (2 ^ 64) with 18446744073709551616; change (2 ^ 56) with 72057594037927936 in B; lia).
  set (t := 7010176 * v + c) in *. clearbody t. rewrite N.shiftr_div_pow2. unfold w32.
  rewrite (N.mod_small (t / 2 ^ 32)) by (apply N.div_lt_upper_bound; [discriminate|]; change (2 ^ 56) with 72057594037927936 in B; change (2 ^ 32 * 2 ^ 32) with 18446744073709551616; lia).
  pose proof (N.div_mod t (2 ^ 32) ltac:(discriminate)) as D. pose proof (N.mod_lt t (2 ^ 32) ltac:(discriminate)) as M.
  set (h := t / 2 ^ 32) in *. set (l := t mod 2 ^ 32) in *. clearbody h l.
  change (2 ^ 56) with 72057594037927936 in B. change (2 ^ 64) with 18446744073709551616. change (2 ^ 32) with 4294967296 in *.
  assert (E : (18446744073709551616 - 1 - t) mod 4294967296 = 4294967295 - l).
  { symmetry. apply (N.mod_unique _ _ (4294967295 - h)); lia. }
  rewrite E. lia.
Qed.
Lemma refill_len : forall q c, length (fst (sk_refill q c)) = length q.
Proof.
  induction q as [|v q IH]; intro c; cbn [sk_refill]; [reflexivity|].
  specialize (IH (w32 (N.shiftr (w64 (w64 (7010176 * v) + c)) 32))). destruct (sk_refill q _). cbn in *. lia.
Qed.
Lemma refill_snd : forall q c, snd (sk_refill q c) = carry_at q c (length q).
Proof.
  induction q as [|v q IH]; intro c; cbn [sk_refill length carry_at]; [reflexivity|].
  specialize (IH (w32 (N.shiftr (w64 (w64 (7010176 * v) + c)) 32))). destruct (sk_refill q _). cbn in *. exact IH.
Qed.
Lemma refill_step : forall q c i, Forall (fun v => v < 2 ^ 32) q -> c < 2 ^ 32 -> (i < length q)%nat ->
  carry_at q c i < 2 ^ 32 /\ carry_at q c (S i) < 2 ^ 32 /\ nth i (fst (sk_refill q c)) 0 < 2 ^ 32 /\
  7010176 * nth i q 0 + carry_at q c i = carry_at q c (S i) * 2 ^ 32 + (2 ^ 32 - 1 - nth i (fst (sk_refill q c)) 0).
Proof.
  induction q as [|v q IH]; intros c i F C L; cbn [length] in L; [lia|].
  inversion F as [|? ? Hv F']; subst. destruct (sk_word v c Hv C) as (E & B1 & B2). cbn zeta in *.
  cbn [sk_refill]. set (t := w64 (w64 (7010176 * v) + c)) in *. set (c' := w32 (N.shiftr t 32)) in *.
  destruct (sk_refill q c') as (q2, c2) eqn:R. destruct i as [|i].
  - cbn [carry_at nth fst]. fold t. fold c'. repeat split; auto. destruct q; exact B1. destruct q; exact E.
  - specialize (IH c' i F' B1 ltac:(lia)). rewrite R in IH. cbn [fst] in *. cbn [nth].
    change (carry_at (v :: q) c (S i)) with (carry_at q c' i). change (carry_at (v :: q) c (S (S i))) with (carry_at q c' (S i)). exact IH.
Qed.

Section Blocks.
Variables (q0 : list N) (c0 : N).
Fixpoint block (b : nat) : list N * N := match b with O => (q0, c0) | S b => let '(q, c) := block b in sk_refill q c end.
Hypothesis Q0 : Forall (fun v => v < 2 ^ 32) q0.
Hypothesis C0 : c0 < 2 ^ 32.
Let r := length q0.
Hypothesis R : (0 < r)%nat.
Lemma Forall_nth_N (l : list N) : (forall i, (i < length l)%nat -> nth i l 0 < 2 ^ 32) -> Forall (fun v => v < 2 ^ 32) l.
Proof. intro H. apply Forall_nth. intros i d L. rewrite (nth_indep _ _ 0 L). auto. Qed.
Lemma block_ok : forall b, length (fst (block b)) = r /\ Forall (fun v => v < 2 ^ 32) (fst (block b)) /\ snd (block b) < 2 ^ 32.
Proof.
  induction b as [|b (L & F & C)]; [cbn; auto|]. cbn [block]. destruct (block b) as (q, c). cbn [fst snd] in *.
  split; [now rewrite refill_len|]. split.
  - apply Forall_nth_N. intros i Li. rewrite refill_len in Li. apply (refill_step q c i F C Li).
  - rewrite refill_snd. destruct r as [|k] eqn:Er; [lia|]. rewrite L. apply (refill_step q c k F C). lia.
Qed.
(** the two sequences *)
Definition xseq (n : nat) : N := nth (n mod r) (fst (block (n / r))) 0.
Definition cseq (n : nat) : N := carry_at (fst (block (n / r))) (snd (block (n / r))) (n mod r).
Lemma at_pos b i : (i < r)%nat -> ((b * r + i) / r)%nat = b /\ ((b * r + i) mod r)%nat = i.
Proof.
  intro L. rewrite Nat.add_comm. split.
  - rewrite Nat.div_add by lia. rewrite Nat.div_small by exact L. lia.
  - rewrite Nat.mod_add by lia. now apply Nat.mod_small.
Qed.
Lemma x_at b i : (i < r)%nat -> xseq (b * r + i) = nth i (fst (block b)) 0.
Proof. intro L. unfold xseq. destruct (at_pos b i L) as (-> & ->). reflexivity. Qed.
Lemma c_at b i : (i < r)%nat -> cseq (b * r + i) = carry_at (fst (block b)) (snd (block b)) i.
Proof. intro L. unfold cseq. destruct (at_pos b i L) as (-> & ->). reflexivity. Qed.
Lemma c_next b i : (i < r)%nat -> cseq (S (b * r + i)) = carry_at (fst (block b)) (snd (block b)) (S i).
Proof.
  intro L. destruct (Nat.eq_dec (S i) r) as [E|E].
  - replace (S (b * r + i)) with (S b * r + 0)%nat by lia. rewrite c_at by lia. rewrite carry_0.
    replace (snd (block (S b))) with (snd (sk_refill (fst (block b)) (snd (block b)))) by (cbn [block]; destruct (block b); reflexivity).
    rewrite refill_snd. destruct (block_ok b) as (Lb & _). rewrite Lb, E. reflexivity.
  - replace (S (b * r + i)) with (b * r + S i)%nat by lia. apply c_at. lia.
Qed.
Lemma seq_ok n : xseq n < 2 ^ 32 /\ cseq n < 2 ^ 32 /\
  7010176 * xseq n + cseq n = cseq (S n) * 2 ^ 32 + (2 ^ 32 - 1 - xseq (n + r)).
Proof.
  pose proof (Nat.div_mod n r ltac:(lia)) as D. pose proof (Nat.mod_upper_bound n r ltac:(lia)) as M.
  set (b := (n / r)%nat) in *. set (i := (n mod r)%nat) in *. clearbody b i. subst n. rewrite (Nat.mul_comm r b).
  replace (b * r + i + r)%nat with (S b * r + i)%nat by lia. rewrite c_next, !x_at, c_at by exact M.
  destruct (block_ok b) as (L & F & C). cbn [block]. destruct (block b) as (q, c). cbn [fst snd] in *.
  destruct (refill_step q c i F C ltac:(lia)) as (B1 & B2 & B3 & E). split; [|split; [exact B1|exact E]].
  rewrite Forall_forall in F. apply F, nth_In. lia.
Qed.
Lemma x_start i : (i < r)%nat -> xseq i = nth i q0 0.
Proof. intro L. exact (x_at 0 i L). Qed.
Lemma c_start : cseq 0 = c0.
Proof. pose proof (c_at 0 0 R) as E. cbn [Nat.mul Nat.add] in E. rewrite E. apply carry_0. Qed.

(** ** The draws *)
Hypothesis RQ : N.of_nat r = QMAX.
Variables (g0 s0 : N).
Definition gseq (n : nat) : N := itr (fun g => add32 (mul32 69069 g) 123) (N.of_nat n) g0.
Definition sseq (n : nat) : N := itr sk_shift (N.of_nat n) s0.
Hypothesis S0 : s0 < 2 ^ 32.
Lemma gseq_S n : gseq (S n) = add32 (mul32 69069 (gseq n)) 123.
Proof. unfold gseq. rewrite Nat2N.inj_succ. exact (itr_succ (fun g => add32 (mul32 69069 g) 123) (N.of_nat n) g0). Qed.
Lemma sseq_S n : sseq (S n) = sk_shift (sseq n).
Proof. unfold sseq. rewrite Nat2N.inj_succ. apply itr_succ. Qed.
(** the state after [k] draws *)
Definition at_draw (k : nat) (st : skstate) : Prop := exists b i, (k + r = b * r + i)%nat /\ (i <= r)%nat /\
  st = mkSK (fst (block b)) (N.of_nat i) (snd (block b)) (gseq k) (sseq k).
Lemma draw_ok k st : (forall n, sseq n < 2 ^ 32) -> at_draw k st ->
  exists st', superkiss_get st = Ok (xseq (k + r) + gseq (S k) + sseq (S k), st') /\ at_draw (S k) st'.
Proof.
  intros SB (b & i & K & I & ->). unfold superkiss_get. cbn [skQ skindx skcarry skcng skxs].
  rewrite <- gseq_S, <- sseq_S, <- RQ.
  assert (W : forall n, w64 (xseq n + gseq (S k) + sseq (S k)) = xseq n + gseq (S k) + sseq (S k)).
  { intro n. apply w64_small. destruct (seq_ok n) as (B & _). specialize (SB (S k)).
    assert (G : gseq (S k) < 2 ^ 32) by (rewrite gseq_S; apply N.mod_lt; discriminate).
    change (2 ^ 32) with 4294967296 in *. change (2 ^ 64) with 18446744073709551616. lia. }
  destruct (N.ltb_spec (N.of_nat i) (N.of_nat r)) as [L|L].
  - destruct (block_ok b) as (Lb & _). rewrite (aget_ok _ _ 0) by lia. cbn [bind].
    replace (Z.to_nat (Z.of_N (N.of_nat i))) with i by lia.
    rewrite <- x_at by lia. rewrite <- K, W. eexists. split; [reflexivity|].
    exists b, (S i). split; [lia|]. split; [lia|]. f_equal. lia.
  - assert (i = r) as -> by lia.
    replace (sk_refill (fst (block b)) (snd (block b))) with (block (S b)) by (cbn [block]; destruct (block b); reflexivity).
    destruct (block_ok (S b)) as (Lb & _).
    destruct (block (S b)) as (q, c) eqn:E. cbn [fst] in Lb. rewrite (aget_ok _ _ 0) by lia. cbn [bind Z.to_nat].
    assert (X : nth 0 q 0 = xseq (k + r)).
    { replace (k + r)%nat with (S b * r + 0)%nat by lia. rewrite x_at by lia. now rewrite E. }
    rewrite X, W. eexists. split; [reflexivity|]. exists (S b), 1%nat. split; [lia|]. split; [lia|]. now rewrite E.
Qed.
Lemma draws_at : (forall n, sseq n < 2 ^ 32) -> forall n k st, at_draw k st ->
  exists st', draws superkiss_get n st = Ok (map (fun j => xseq (j + r) + gseq (S j) + sseq (S j)) (seq k n), st').
Proof.
  intros SB. induction n as [|n IH]; intros k st H; cbn [draws seq map]; [eexists; reflexivity|].
  destruct (draw_ok k st SB H) as (st1 & -> & H1). cbn [bind]. destruct (IH _ _ H1) as (st2 & ->). cbn [bind]. eexists. reflexivity.
Qed.
End Blocks.

(** The shift register of the design: left 13, right 17, right 5 on 32 bits. *)
Definition shift_step (v : N) : N :=
  let v := N.lxor v (N.shiftl v 13 mod 2 ^ 32) in
  let v := N.lxor v (N.shiftr v 17) in
  N.lxor v (N.shiftr v 5).

(** For every seed there are sequences [x] (complementary multiply-with-carry
    with lag 41790 and multiplier 7010176, [c] its carries), [g] (congruential)
    and [s] (shift register), started as the design says and from the seeding
    generator, such that the [k]-th draw is x + g + s. *)
Theorem C95_sequence : forall mt old seed, exists x c g s : nat -> N,
  let r := N.to_nat 41790 in
  (forall i, (i < r)%nat -> x i = mt (seed mod 2 ^ 32) i mod 2 ^ 32) /\ c 0%nat = 362436 /\
  (forall n, x n < 2 ^ 32 /\ c n < 2 ^ 32 /\ 7010176 * x n + c n = c (S n) * 2 ^ 32 + (2 ^ 32 - 1 - x (n + r)%nat)) /\
  g 0%nat = 1236789 /\ (forall n, g (S n) = (69069 * g n + 123) mod 2 ^ 32) /\
  s 0%nat = 521288629 /\ (forall n, s (S n) = shift_step (s n)) /\
  forall n, exists st, draws superkiss_get n (superkiss_set mt old seed) =
    Ok (map (fun k => x (k + r)%nat + g (S k) + s (S k)) (seq 0 n), st).
Proof.
  intros mt old seed. unfold superkiss_set. change QMAX with 41790 at 1.
  assert (RN : N.of_nat (N.to_nat 41790) = QMAX) by (rewrite N2Nat.id; reflexivity).
  generalize dependent (N.to_nat 41790). intros r RN.
  set (q0 := map (fun i => w32 (mt (w32 seed) i)) (seq 0 r)).
  assert (L : length q0 = r) by (unfold q0; now rewrite map_length, seq_length).
  assert (R : (0 < length q0)%nat) by (rewrite L; unfold QMAX in RN; lia).
  assert (F : Forall (fun v => v < 2 ^ 32) q0).
  { apply Forall_forall. intros v I. apply in_map_iff in I. destruct I as (i & <- & _). apply N.mod_lt. discriminate. }
  assert (C : 362436 < 2 ^ 32) by reflexivity.
  assert (SB : forall n, sseq 521288629 n < 2 ^ 32).
  { induction n as [|n IH]; [reflexivity|]. rewrite sseq_S. apply sk_shift_lt. exact IH. }
  exists (xseq q0 362436), (cseq q0 362436), (gseq 1236789), (sseq 521288629).
  cbn zeta. rewrite <- L. repeat split.
  - intros i Hi. rewrite x_start by auto. unfold q0. rewrite (nth_indep _ _ (w32 (mt (w32 seed) 0%nat))) by (fold q0; exact Hi).
    rewrite (map_nth (fun i => w32 (mt (w32 seed) i))). rewrite seq_nth by lia. reflexivity.
  - apply c_start; auto.
  - apply (seq_ok q0 362436 F C R).
  - apply (seq_ok q0 362436 F C R).
  - apply (seq_ok q0 362436 F C R).
  - intro n. rewrite gseq_S. unfold add32, mul32, w32. rewrite N.add_mod_idemp_l by discriminate. reflexivity.
  - intro n. rewrite sseq_S. reflexivity.
  - intro n. assert (RL : N.of_nat (length q0) = QMAX) by now rewrite L.
    eapply draws_at; eauto. exists 0%nat, (length q0). split; [lia|]. split; [lia|].
    cbn [block fst snd]. rewrite RL. reflexivity.
Qed.
Print Assumptions C95_sequence.

(** The first draw after seeding with the constant generator 7: x(41790) is the
    complement of the low word of 7010176 * 7 + 362436. *)
Lemma first_draw st0 r (x c g s : nat -> N) : (0 < r)%nat ->
  (forall i, (i < r)%nat -> x i = 7) -> c 0%nat = 362436 ->
  (forall n, x n < 2 ^ 32 /\ c n < 2 ^ 32 /\ 7010176 * x n + c n = c (S n) * 2 ^ 32 + (2 ^ 32 - 1 - x (n + r)%nat)) ->
  (exists st, draws superkiss_get 1 st0 = Ok (map (fun k => x (k + r)%nat + g (S k) + s (S k)) (seq 0 1), st)) ->
  exists st, superkiss_get st0 = Ok (4245533627 + g 1%nat + s 1%nat, st).
Proof.
  intros R0 X C XC (st & D). cbn [seq map draws Nat.add] in D.
  destruct (superkiss_get st0) as [(v, st1)| | |]; cbn [bind] in D; try discriminate.
  injection D as -> _. exists st1. f_equal. f_equal. f_equal. f_equal.
  destruct (XC 0%nat) as (_ & _ & E). destruct (XC r) as (B & _ & _). rewrite C, (X 0%nat R0) in E. cbn [Nat.add] in E.
  change (2 ^ 32) with 4294967296 in *. nia.
Qed.
Example C95_ex : forall old, exists st, superkiss_get (superkiss_set (fun _ _ => 7) old 0) =
  Ok (4245533627 + 3819400940 + 1520931387, st).
Proof.
  intro old. destruct (C95_sequence (fun _ _ => 7) old 0) as (x & c & g & s & X & C & XC & G0 & G & S0 & S & D).
  replace 3819400940 with (g 1%nat) by (rewrite G, G0; reflexivity).
  replace 1520931387 with (s 1%nat) by (rewrite S, S0; vm_compute; reflexivity).
  apply (first_draw _ _ x c g s) with (2 := X) (3 := C) (4 := XC) (5 := D 1%nat).
  exact (Pos2Nat.is_pos 41790).
Qed.
