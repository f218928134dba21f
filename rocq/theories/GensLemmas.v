(** Lemmas about the generators of GensModel. *)
From Verif Require Export KissLemmas.
Open Scope N_scope.

(** ** Width *)
Lemma rmax_loop_ok : forall fuel m bits mask, m < 2 ^ N.of_nat fuel -> bits + N.size m <= 32 -> mask = 2 ^ bits - 1 ->
  rmax_loop (S fuel) m bits mask = Ok (bits + N.size m, 2 ^ (bits + N.size m) - 1).
Proof.
  induction fuel as [|fuel IH]; intros m bits mask Hm Hb E.
  - cbn in Hm. replace m with 0 in * by lia. cbn. rewrite N.add_0_r, E. reflexivity.
  - remember (S fuel) as f eqn:Ef. cbn [rmax_loop]. rewrite Ef in *. clear f Ef. destruct (N.eqb_spec m 0) as [->|Hn]; [cbn [N.size]; rewrite N.add_0_r, E; reflexivity|].
    assert (D : N.shiftr m 1 = m / 2) by (rewrite N.shiftr_div_pow2; reflexivity).
    assert (Sz : N.size m = N.succ (N.size (m / 2))).
    { destruct m as [|[p|p|]]; try contradiction; rewrite <- N.div2_div; reflexivity. }
    assert (L1 : bits + 1 < 2 ^ 32) by (change (2 ^ 32) with 4294967296; lia).
    assert (Lm : mask < 2 ^ 31 /\ 2 * mask + 1 = 2 ^ (bits + 1) - 1).
    { rewrite E. assert (2 ^ bits <= 2 ^ 31) by (apply N.pow_le_mono_r; lia).
      assert (2 ^ bits <> 0) by (apply N.pow_nonzero; lia). rewrite N.pow_add_r. change (2 ^ 1) with 2.
      change (2 ^ 31) with 2147483648 in *. lia. }
    destruct Lm as [Lm Em]. change (2 ^ 31) with 2147483648 in Lm.
    assert (A1 : add32 bits 1 = bits + 1) by (apply N.mod_small; exact L1).
    assert (A2 : add32 (w32 (N.shiftl mask 1)) 1 = 2 ^ (bits + 1) - 1).
    { unfold add32, w32. rewrite N.shiftl_mul_pow2. change (2 ^ 1) with 2. rewrite <- Em.
      rewrite !N.mod_small; rewrite ?N.mod_small; change (2 ^ 32) with 4294967296; lia. }
    rewrite A1, A2, D, IH.
    + rewrite Sz. f_equal. f_equal; [|f_equal; f_equal]; lia.
    + rewrite Nat2N.inj_succ, N.pow_succ_r' in Hm. apply N.div_lt_upper_bound; lia.
    + rewrite Sz in Hb. lia.
    + reflexivity.
Qed.
Lemma size_width m : is_width m (N.size m).
Proof.
  split; [apply N.size_gt|]. intros b H.
  destruct (N.le_gt_cases (N.size m) b) as [L|L]; [exact L|exfalso].
  destruct (N.eq_dec m 0) as [->|Hm]; [cbn in L; lia|].
  assert (2 ^ (N.size m - 1) <= m).
  { rewrite N.size_log2 by exact Hm. replace (N.succ (N.log2 m) - 1) with (N.log2 m) by lia.
    apply N.log2_spec. lia. }
  assert (2 ^ b <= 2 ^ (N.size m - 1)) by (apply N.pow_le_mono_r; lia). lia.
Qed.
Lemma measure_rmax_ok max : measure_rmax max = Ok (N.size (w32 max), 2 ^ N.size (w32 max) - 1).
Proof.
  unfold measure_rmax. apply (rmax_loop_ok 32 (w32 max) 0 0).
  - apply w32_lt.
  - apply (size_width (w32 max)). apply w32_lt.
  - reflexivity.
Qed.

Lemma lt_max v : v < 2 ^ 32 -> v <= 2 ^ 32 - 1.
Proof. change (2 ^ 32) with 4294967296. lia. Qed.

(** ** Histories *)
Section Run.
Context {S : Type}.
Variable set : S -> N -> outcome S.
Variable get : S -> outcome (N * S).

Lemma run_inv (P : S -> Prop) (Q : N -> Prop) :
  (forall st s st', P st -> set st s = Ok st' -> P st') ->
  (forall st v st', P st -> get st = Ok (v, st') -> Q v /\ P st') ->
  forall ops st vs st', P st -> run set get ops st = Ok (vs, st') -> Forall Q vs /\ P st'.
Proof.
  intros HS HG. induction ops as [|[s|] ops IH]; intros st vs st' HP H; cbn [run bind] in H.
  - injection H as <- <-. split; [constructor|exact HP].
  - destruct (set st s) as [st1| | |] eqn:E; try discriminate. cbn [bind] in H.
    apply (IH st1); [exact (HS _ _ _ HP E)|exact H].
  - destruct (get st) as [[v st1]| | |] eqn:E; try discriminate. cbn [bind] in H.
    destruct (run set get ops st1) as [[vs1 st2]| | |] eqn:E2; try discriminate. cbn [bind] in H.
    injection H as <- <-. destruct (HG _ _ _ HP E) as [Qv P1]. destruct (IH _ _ _ P1 E2) as [F P2].
    split; [constructor; assumption|exact P2].
Qed.
Lemma run_ok (P : S -> Prop) :
  (forall st s, P st -> exists st', set st s = Ok st' /\ P st') ->
  (forall st, P st -> exists v st', get st = Ok (v, st') /\ P st') ->
  forall st, P st -> never_fails set get st.
Proof.
  intros HS HG st HP ops. revert st HP. induction ops as [|[s|] ops IH]; intros st HP; cbn [run bind].
  - eexists. reflexivity.
  - destruct (HS st s HP) as (st' & -> & P'). cbn [bind]. apply IH. exact P'.
  - destruct (HG st HP) as (v & st' & -> & P'). cbn [bind].
    destruct (IH st' P') as ([vs st2] & ->). eexists. reflexivity.
Qed.
Lemma reproducible_if : (forall a b s, set a s = set b s) -> reproducible set get.
Proof.
  intros H st1 st2 h1 h2 s n [o1 r1] [o2 r2] E1 E2. unfold after. rewrite E1, E2. cbn [bind run].
  rewrite (H r1 r2 s). reflexivity.
Qed.
Lemma run_draws n : forall st, run set get (repeat Draw n) st = draws get n st.
Proof.
  induction n as [|n IH]; intro st; [reflexivity|]. cbn [repeat run draws].
  destruct (get st) as [[v st']| | |]; try reflexivity. cbn [bind]. rewrite IH. reflexivity.
Qed.
End Run.

(** ** XOR *)
Lemma xor_all_app a b : xor_all (a ++ b) = N.lxor (xor_all a) (xor_all b).
Proof.
  induction a as [|x a IH]; cbn; [reflexivity|]. fold (xor_all (a ++ b)). fold (xor_all a).
  rewrite IH. symmetry. apply N.lxor_assoc.
Qed.
Section XorLemmas.
Variable gen : nat -> nat -> N.
Variable gv : nat.

Lemma xor_loop_ok : forall n i rnd (p : xpos), (1 <= i)%nat -> (i + n <= gv)%nat ->
  exists p', xor_loop gen gv n i rnd p
      = Ok (N.lxor rnd (xor_all (map (fun j => w32 (gen j (p j))) (seq i n))), p')
    /\ forall j, p' j = if Nat.leb i j && Nat.ltb j (i + n) then S (p j) else p j.
Proof.
  induction n as [|n IH]; intros i rnd p Hi Hn; cbn [xor_loop].
  - exists p. split; [cbn; rewrite N.lxor_0_r; reflexivity|]. intro j.
    destruct (Nat.leb_spec i j), (Nat.ltb_spec j (i + 0)); cbn; try reflexivity; lia.
  - unfold xor_component. rewrite (proj2 (Nat.ltb_lt i gv)), (proj2 (Nat.leb_le 1 i)) by lia. cbn [andb bind].
    destruct (IH (S i) (N.lxor rnd (w32 (gen i (p i)))) (bump_pos p i) ltac:(lia) ltac:(lia)) as (p' & E & Hp).
    exists p'. split.
    + rewrite E. f_equal. f_equal. cbn [seq map xor_all fold_right]. rewrite <- N.lxor_assoc. f_equal.
      fold (xor_all (map (fun j => w32 (gen j (p j))) (seq (S i) n))). f_equal.
      apply map_ext_in. intros j Hj. apply in_seq in Hj. unfold bump_pos.
      rewrite (proj2 (Nat.eqb_neq i j)) by lia. reflexivity.
    + intro j. rewrite Hp. unfold bump_pos.
      destruct (Nat.eqb_spec i j); destruct (Nat.leb_spec (S i) j), (Nat.ltb_spec j (S i + n)),
        (Nat.leb_spec i j), (Nat.ltb_spec j (i + S n)); cbn; try reflexivity; lia.
Qed.

(** Output number [k] of the program. *)
Definition xor_out (k : nat) : N :=
  xor_all (w32 (gen 1 (2 * k)) :: w32 (gen 1 (2 * k + 1)) :: map (fun i => w32 (gen i k)) (seq 2 (gv - 2))).
Lemma XOR_draws : (2 <= gv)%nat -> forall n k (p : xpos),
  p 1%nat = (2 * k)%nat -> (forall i, (2 <= i < gv)%nat -> p i = k) ->
  exists p', draws (XOR_get gen gv) n p = Ok (map xor_out (seq k n), p').
Proof.
  intro Hg. induction n as [|n IH]; intros k p P1 P2; cbn [draws].
  - exists p. reflexivity.
  - assert (X : XOR_get gen gv p = xor_loop gen gv (gv - 1) 1 (w32 (gen 1 (p 1%nat))) (bump_pos p 1)).
    { unfold XOR_get, xor_component. rewrite (proj2 (Nat.ltb_lt 1 gv)) by lia. reflexivity. }
    rewrite X. clear X.
    destruct (xor_loop_ok (gv - 1) 1 (w32 (gen 1 (p 1%nat))) (bump_pos p 1) ltac:(lia) ltac:(lia)) as (p' & E & Hp).
    rewrite E. cbn [bind].
    assert (B : forall j, j <> 1%nat -> bump_pos p 1 j = p j).
    { intros j Hj. unfold bump_pos. rewrite (proj2 (Nat.eqb_neq 1 j)) by lia. reflexivity. }
    destruct (IH (S k) p') as (p2 & E2).
    { rewrite Hp. rewrite (proj2 (Nat.leb_le 1 1)), (proj2 (Nat.ltb_lt 1 (1 + (gv - 1)))) by lia. cbn [andb].
      change (bump_pos p 1 1%nat) with (S (p 1%nat)). lia. }
    { intros i Hi. rewrite Hp. rewrite (proj2 (Nat.leb_le 1 i)), (proj2 (Nat.ltb_lt i (1 + (gv - 1)))) by lia.
      cbn [andb]. rewrite B, P2 by lia. reflexivity. }
    rewrite E2. cbn [bind]. exists p2. f_equal. f_equal. cbn [seq map]. f_equal.
    unfold xor_out. replace (gv - 1)%nat with (S (gv - 2)) by lia. cbn [seq map xor_all fold_right].
    rewrite P1. change (bump_pos p 1 1%nat) with (S (p 1%nat)). rewrite P1.
    replace (S (2 * k)) with (2 * k + 1)%nat by lia. do 3 f_equal.
    apply map_ext_in. intros j Hj. apply in_seq in Hj. rewrite B, P2 by lia. reflexivity.
Qed.
Lemma xor_all_lt l : Forall (fun v => v < 2 ^ 32) l -> xor_all l < 2 ^ 32.
Proof.
  induction 1 as [|x l Hx _ IH]; [reflexivity|]. cbn. apply lxor_w32_lt; [exact Hx|exact IH].
Qed.
End XorLemmas.

(** ** kiss *)
Definition kiss_next (s : kstate) : kstate :=
  mkK ((314527869 * kx s + 1234567) mod 2 ^ 32) (kiss_shift (ky s))
      ((4294584393 * kz s + kc s) mod 2 ^ 32) ((4294584393 * kz s + kc s) / 2 ^ 32).
Record kgood (s : kstate) : Prop := {
  kg_x : kx s < 2 ^ 32; kg_y : 0 < ky s /\ ky s < 2 ^ 32; kg_z : kz s < 2 ^ 32; kg_c : kc s < 4294584393;
  kg_0 : 0 < kz s + kc s; kg_1 : kz s + kc s < 2 ^ 32 - 1 + 4294584392 }.
Lemma kgood_t s : kgood s -> 4294584393 * kz s + kc s < 4294584393 * 2 ^ 32 - 1 /\ 0 < 4294584393 * kz s + kc s.
Proof.
  intros [_ _ Hz Hc H0 H1]. change (2 ^ 32) with 4294967296 in *. lia.
Qed.
Lemma kiss_get_ok s : kgood s -> exists v, kiss_get s = Ok (v, kiss_next s) /\ v < 2 ^ 32.
Proof.
  intro G. destruct (kgood_t s G) as [T _]. unfold kiss_get, kiss_next.
  assert (E1 : w64 (4294584393 * kz s) = 4294584393 * kz s).
  { apply N.mod_small. change (2 ^ 64) with 18446744073709551616. change (2 ^ 32) with 4294967296 in T. lia. }
  assert (E2 : w64 (w64 (4294584393 * kz s) + kc s) = 4294584393 * kz s + kc s).
  { rewrite E1. apply N.mod_small. change (2 ^ 64) with 18446744073709551616. change (2 ^ 32) with 4294967296 in T. lia. }
  rewrite E2. set (t := 4294584393 * kz s + kc s) in *.
  assert (E3 : w32 (N.shiftr t 32) = t / 2 ^ 32).
  { rewrite N.shiftr_div_pow2. apply N.mod_small. apply N.div_lt_upper_bound; [discriminate|].
    change (2 ^ 32) with 4294967296 in *. lia. }
  rewrite E3. replace (add32 (mul32 314527869 (kx s)) 1234567) with ((314527869 * kx s + 1234567) mod 2 ^ 32)
    by (unfold add32, mul32, w32; rewrite N.add_mod_idemp_l by discriminate; reflexivity).
  eexists. split; [reflexivity|]. apply w32_lt.
Qed.
Lemma kiss_next_good s : kgood s -> kgood (kiss_next s).
Proof.
  intro G. destruct (kgood_t s G) as [T T0]. destruct G as [Hx [Hy0 Hy] Hz Hc H0 H1].
  unfold kiss_next. set (t := 4294584393 * kz s + kc s) in *.
  pose proof (N.div_mod t (2 ^ 32) ltac:(discriminate)) as D.
  pose proof (N.mod_lt t (2 ^ 32) ltac:(discriminate)) as M.
  constructor; cbn [kx ky kz kc].
  - apply N.mod_lt. discriminate.
  - split; [apply kiss_shift_nonzero; assumption|apply kiss_shift_lt; exact Hy].
  - exact M.
  - apply N.div_lt_upper_bound; [discriminate|]. change (2 ^ 32) with 4294967296 in *. lia.
  - set (q := t / 2 ^ 32) in *. set (r := t mod 2 ^ 32) in *. clearbody q r t. change (2 ^ 32) with 4294967296 in *. lia.
  - set (q := t / 2 ^ 32) in *. set (r := t mod 2 ^ 32) in *. clearbody q r t. change (2 ^ 32) with 4294967296 in *. lia.
Qed.
Lemma kiss_draws n : forall s, kgood s -> exists vs, draws kiss_get n s = Ok (vs, itr kiss_next (N.of_nat n) s)
  /\ length vs = n /\ Forall (fun v => v < 2 ^ 32) vs /\ kgood (itr kiss_next (N.of_nat n) s).
Proof.
  induction n as [|n IH]; intros s G; cbn [draws].
  - exists []. repeat split; [constructor|apply G..].
  - destruct (kiss_get_ok s G) as (v & -> & Hv). cbn [bind].
    destruct (IH (kiss_next s) (kiss_next_good s G)) as (vs & -> & L & F & G2). cbn [bind].
    assert (E : itr kiss_next (N.of_nat (S n)) s = itr kiss_next (N.of_nat n) (kiss_next s)).
    { replace (N.of_nat (S n)) with (N.of_nat n + 1) by lia. rewrite itr_add. reflexivity. }
    exists (v :: vs). rewrite E. repeat split; [cbn; rewrite L; reflexivity|constructor; assumption|apply G2..].
Qed.
Lemma kiss_itr_x k : forall s, kx (itr kiss_next k s) = itr (fun x => (314527869 * x + 1234567) mod 2 ^ 32) k (kx s).
Proof.
  intro s. induction k as [|k IH] using N.peano_ind; [reflexivity|]. rewrite !itr_succ, <- IH. reflexivity.
Qed.
Lemma kiss_itr_y k : forall s, ky (itr kiss_next k s) = itr kiss_shift k (ky s).
Proof.
  intro s. induction k as [|k IH] using N.peano_ind; [reflexivity|]. rewrite !itr_succ, <- IH. reflexivity.
Qed.
Lemma kiss_return s k : kgood s -> itr kiss_next k s = s -> (2 ^ 32 * (2 ^ 32 - 1) | k).
Proof.
  intros G H.
  assert (X : (2 ^ 32 | k)).
  { apply (lcg_period 314527869 1234567 eq_refl eq_refl 32 k (kx s)); [apply G|].
    rewrite <- kiss_itr_x, H. reflexivity. }
  assert (Y : (2 ^ 32 - 1 | k)).
  { destruct (kg_y s G) as [Y0 Y1]. apply (kiss_shift_period (ky s) k Y0 Y1). rewrite <- kiss_itr_y, H. reflexivity. }
  destruct X as [q ->]. rewrite (N.mul_comm q). apply N.mul_divide_mono_l.
  apply (N.gauss _ (2 ^ 32)); [rewrite N.mul_comm; exact Y|reflexivity].
Qed.
Lemma kiss_seed_y_ok mt : forall fuel seed pos y pos', kiss_seed_y mt fuel seed pos = Ok (y, pos') -> 0 < y /\ y < 2 ^ 32.
Proof.
  induction fuel as [|fuel IH]; intros seed pos y pos' H; cbn [kiss_seed_y] in H; [discriminate|].
  destruct (N.eqb_spec (w32 (mt seed pos)) 0) as [E|E]; [apply (IH _ _ _ _ H)|].
  injection H as <- <-. split; [lia|apply w32_lt].
Qed.
Lemma kiss_set_good mt fuel old s st : kiss_set mt fuel old s = Ok st -> kgood st.
Proof.
  unfold kiss_set. destruct (kiss_seed_y mt fuel (w32 s) 1) as [[y pos]| | |] eqn:E; try discriminate.
  cbn [bind]. intro H. injection H as <-. destruct (kiss_seed_y_ok mt _ _ _ _ _ E) as [Y0 Y].
  assert (C : w32 (mt (w32 s) (S pos) mod 698769068 + 1) = mt (w32 s) (S pos) mod 698769068 + 1 /\
              mt (w32 s) (S pos) mod 698769068 < 698769068).
  { assert (M : mt (w32 s) (S pos) mod 698769068 < 698769068) by (apply N.mod_lt; discriminate).
    split; [|exact M]. apply N.mod_small. change (2 ^ 32) with 4294967296. lia. }
  destruct C as [C1 C2]. 
  pose proof (w32_lt (mt (w32 s) pos)) as Z.
  constructor; cbn [kx ky kz kc]; rewrite ?C1; try apply w32_lt; change (2 ^ 32) with 4294967296 in *; lia.
Qed.

(** ** superkiss *)
Record skgood (s : skstate) : Prop := {
  sg_len : length (skQ s) = N.to_nat QMAX; sg_q : Forall (fun v => v < 2 ^ 32) (skQ s);
  sg_i : skindx s <= QMAX; sg_c : skcarry s < 7010176;
  sg_n : skcng s < 2 ^ 32; sg_x : skxs s < 2 ^ 32 }.
Lemma sk_refill_ok : forall q carry, Forall (fun v => v < 2 ^ 32) q -> carry < 7010176 ->
  length (fst (sk_refill q carry)) = length q /\ Forall (fun v => v < 2 ^ 32) (fst (sk_refill q carry))
  /\ snd (sk_refill q carry) < 7010176.
Proof.
  induction q as [|v q IH]; intros carry F C; cbn [sk_refill].
  - cbn. repeat split; [constructor|exact C].
  - inversion F as [|? ? Hv F2]; subst.
    assert (E : w64 (w64 (7010176 * v) + carry) = 7010176 * v + carry /\ 7010176 * v + carry < 7010176 * 2 ^ 32).
    { unfold w64. change (2 ^ 64) with 18446744073709551616. change (2 ^ 32) with 4294967296 in *.
      rewrite (N.mod_small (7010176 * v)) by lia. rewrite N.mod_small by lia. lia. }
    destruct E as [-> E].
    assert (C2 : w32 (N.shiftr (7010176 * v + carry) 32) < 7010176).
    { rewrite N.shiftr_div_pow2. eapply N.le_lt_trans; [apply N.mod_le; discriminate|].
      apply N.div_lt_upper_bound; [discriminate|]. rewrite (N.mul_comm (2 ^ 32)). exact E. }
    specialize (IH _ F2 C2). destruct (sk_refill q _) as [q2 c] eqn:R. cbn [fst snd] in IH |- *.
    destruct IH as (L & F3 & C3). cbn [length]. repeat split; [rewrite L; reflexivity| |exact C3].
    constructor; [apply w32_lt|exact F3].
Qed.

Lemma superkiss_get_ok s : skgood s -> exists q st',
  superkiss_get s = Ok (q + (69069 * skcng s + 123) mod 2 ^ 32 + sk_shift (skxs s), st')
  /\ skgood st' /\ q < 2 ^ 32
  /\ skcng st' = (69069 * skcng s + 123) mod 2 ^ 32 /\ skxs st' = sk_shift (skxs s).
Proof.
  intros [L F I C Hn Hx]. unfold superkiss_get.
  assert (En : add32 (mul32 69069 (skcng s)) 123 = (69069 * skcng s + 123) mod 2 ^ 32)
    by (unfold add32, mul32, w32; rewrite N.add_mod_idemp_l by discriminate; reflexivity).
  rewrite En. pose proof (sk_shift_lt (skxs s) Hx) as Hx2.
  assert (Hn2 : (69069 * skcng s + 123) mod 2 ^ 32 < 2 ^ 32) by (apply N.mod_lt; discriminate).
  set (cng := (69069 * skcng s + 123) mod 2 ^ 32) in *. set (xs := sk_shift (skxs s)) in *. clearbody cng xs. clear En.
  assert (W : forall q, q < 2 ^ 32 -> w64 (q + cng + xs) = q + cng + xs).
  { intros q Hq. apply N.mod_small. change (2 ^ 64) with 18446744073709551616. change (2 ^ 32) with 4294967296 in *. lia. }
  destruct (N.ltb_spec (skindx s) QMAX) as [Hi|Hi].
  - assert (Hb : (0 <= Z.of_N (skindx s) < Z.of_nat (length (skQ s)))%Z) by (rewrite L; unfold QMAX in *; lia).
    rewrite (aget_ok (skQ s) _ 0) by lia. cbn [bind].
    set (q := nth _ (skQ s) 0). assert (Hq : q < 2 ^ 32).
    { rewrite Forall_forall in F. apply F. apply nth_In. rewrite L. unfold QMAX in *. lia. }
    exists q. eexists. rewrite W by exact Hq. split; [reflexivity|].
    split; [constructor; cbn [skQ skindx skcarry skcng skxs]; try assumption; unfold QMAX in *; lia|].
    split; [exact Hq|split; reflexivity].
  - destruct (sk_refill_ok (skQ s) (skcarry s) F C) as (L2 & F2 & C2).
    destruct (sk_refill (skQ s) (skcarry s)) as [q2 c]. cbn [fst snd] in *.
    assert (Hb : (0 <= 0 < Z.of_nat (length q2))%Z) by (rewrite L2, L; unfold QMAX; lia).
    rewrite (aget_ok q2 0 0) by lia. cbn [bind].
    set (q := nth _ q2 0). assert (Hq : q < 2 ^ 32).
    { rewrite Forall_forall in F2. apply F2. apply nth_In. rewrite L2, L. unfold QMAX in *. lia. }
    exists q. eexists. rewrite W by exact Hq. split; [reflexivity|].
    split; [constructor; cbn [skQ skindx skcarry skcng skxs]; try assumption; unfold QMAX in *; try lia|].
    split; [exact Hq|split; reflexivity].
Qed.
Lemma superkiss_set_good mt old s : skgood (superkiss_set mt old s).
Proof.
  unfold superkiss_set. constructor; cbn [skQ skindx skcarry skcng skxs]; [| |apply N.le_refl|reflexivity..].
  - rewrite map_length, seq_length. exact eq_refl.
  - apply Forall_forall. intros v Hv. apply in_map_iff in Hv. destruct Hv as (i & <- & _). apply w32_lt.
Qed.
Lemma superkiss_draws n : forall s, skgood s -> exists vs st', draws superkiss_get n s = Ok (vs, st')
  /\ length vs = n /\ skgood st' /\ skxs st' = itr sk_shift (N.of_nat n) (skxs s)
  /\ skcng st' = itr (fun x => (69069 * x + 123) mod 2 ^ 32) (N.of_nat n) (skcng s).
Proof.
  induction n as [|n IH]; intros s G; cbn [draws].
  - exists [], s. repeat split; apply G.
  - destruct (superkiss_get_ok s G) as (q & st' & -> & G' & Hq & En & Ex). cbn [bind].
    destruct (IH st' G') as (vs & st2 & -> & L & G2 & X & Y). cbn [bind].
    exists (q + (69069 * skcng s + 123) mod 2 ^ 32 + sk_shift (skxs s) :: vs), st2.
    assert (E : forall A (f : A -> A) x, itr f (N.of_nat (S n)) x = itr f (N.of_nat n) (f x)).
    { intros A f x. replace (N.of_nat (S n)) with (N.of_nat n + 1) by lia. rewrite itr_add. reflexivity. }
    split; [reflexivity|]. split; [cbn; rewrite L; reflexivity|]. split; [exact G2|].
    rewrite X, Y, En, Ex, !E. split; reflexivity.
Qed.

(** ** uvag *)
Definition bytes (l : list N) : Prop := Forall (fun b => b < 256) l.
Record uvgood (s : uvstate) : Prop := {
  ug_len : length (uvec s) = N.to_nat ULEN; ug_b : bytes (uvec s); ug_i : uindex s < 256; ug_r : urnd s < 2 ^ 32 }.
Lemma bytes_nth l i : bytes l -> nth i l 0 < 256.
Proof.
  intro B. destruct (Nat.lt_ge_cases i (length l)) as [H|H].
  - unfold bytes in B. rewrite Forall_forall in B. apply B. apply nth_In. exact H.
  - rewrite nth_overflow by exact H. reflexivity.
Qed.
Lemma bytes_set_nth l i b : bytes l -> b < 256 -> bytes (set_nth l i b).
Proof.
  unfold bytes. intros B Hb. revert i. induction B as [|x l Hx B IH]; intro i; [destruct i; constructor|].
  destruct i as [|i]; cbn [set_nth]; constructor; auto.
Qed.
Lemma aset_bytes l i b : (0 <= i < Z.of_nat (length l))%Z -> bytes l -> b < 256 ->
  exists l', aset l i b = Ok l' /\ length l' = length l /\ bytes l'.
Proof.
  intros Hi B Hb. rewrite (aset_ok l i b) by lia. eexists. split; [reflexivity|].
  split; [apply set_nth_length|apply bytes_set_nth; assumption].
Qed.
Lemma read4_ok v p : p + 4 <= N.of_nat (length v) -> bytes v -> exists w, read4 v p = Ok w /\ w < 2 ^ 32.
Proof.
  intros H B. unfold read4. rewrite (aget_ok v (Z.of_N p) 0), (aget_ok v (Z.of_N (p + 1)) 0),
    (aget_ok v (Z.of_N (p + 2)) 0), (aget_ok v (Z.of_N (p + 3)) 0) by lia. cbn [bind].
  eexists. split; [reflexivity|].
  pose proof (bytes_nth v (Z.to_nat (Z.of_N p)) B). pose proof (bytes_nth v (Z.to_nat (Z.of_N (p + 1))) B).
  pose proof (bytes_nth v (Z.to_nat (Z.of_N (p + 2))) B). pose proof (bytes_nth v (Z.to_nat (Z.of_N (p + 3))) B).
  change (2 ^ 32) with 4294967296. change (2 ^ 8) with 256. change (2 ^ 16) with 65536. change (2 ^ 24) with 16777216. lia.
Qed.
Lemma write4_ok v p w : p + 4 <= N.of_nat (length v) -> bytes v ->
  exists v', write4 v p w = Ok v' /\ length v' = length v /\ bytes v'.
Proof.
  intros H B. unfold write4.
  assert (M : forall x, x mod 256 < 256) by (intro; apply N.mod_lt; discriminate).
  destruct (aset_bytes v (Z.of_N p) _ ltac:(lia) B (M w)) as (v1 & -> & L1 & B1). cbn [bind].
  destruct (aset_bytes v1 (Z.of_N (p + 1)) _ ltac:(lia) B1 (M (w / 2 ^ 8))) as (v2 & -> & L2 & B2). cbn [bind].
  destruct (aset_bytes v2 (Z.of_N (p + 2)) _ ltac:(lia) B2 (M (w / 2 ^ 16))) as (v3 & -> & L3 & B3). cbn [bind].
  destruct (aset_bytes v3 (Z.of_N (p + 3)) _ ltac:(lia) B3 (M (w / 2 ^ 24))) as (v4 & -> & L4 & B4).
  exists v4. split; [reflexivity|]. split; [congruence|exact B4].
Qed.
Lemma uvag_get_ok s : uvgood s -> exists v st', uvag_get s = Ok (v, st') /\ v < 2 ^ 32 /\ uvgood st'.
Proof.
  intros [L B I R]. unfold uvag_get. set (i := (uindex s + 1) mod 256).
  assert (Hi : i < 256) by (apply N.mod_lt; discriminate).
  rewrite (aget_ok (uvec s) (Z.of_N i) 0) by (unfold ULEN in *; lia). cbn [bind].
  set (p := nth _ (uvec s) 0). assert (Hp : p < 256) by (apply bytes_nth; exact B).
  destruct (read4_ok (uvec s) p) as (w & -> & Hw); [rewrite L; unfold ULEN; lia|exact B|]. cbn [bind].
  destruct (write4_ok (uvec s) p (add32 w (urnd s))) as (v & -> & L2 & B2); [rewrite L; unfold ULEN; lia|exact B|].
  cbn [bind]. eexists. eexists. split; [reflexivity|]. split; [apply w32_lt|].
  constructor; cbn [uvec uindex urnd]; [congruence|exact B2|exact Hi|apply w32_lt].
Qed.
Lemma shuffle_ok : forall n i key kp tot v, (i + n <= N.to_nat ULEN)%nat -> length v = N.to_nat ULEN -> bytes v ->
  length key = 256%nat -> bytes key -> nth 255 key 0 = 0 -> (kp < 255)%nat -> tot < ULEN ->
  exists v', uvag_shuffle n i key kp tot v = Ok v' /\ length v' = N.to_nat ULEN /\ bytes v'.
Proof.
  induction n as [|n IH]; intros i key kp tot v Hi L B LK BK K0 Hk Ht; cbn [uvag_shuffle].
  - exists v. repeat split; assumption.
  - rewrite (aget_ok key (Z.of_nat kp) 0) by lia. cbn [bind].
    set (k := nth (Z.to_nat (Z.of_nat kp)) key 0). set (t := add32 tot k mod ULEN).
    assert (Ht2 : t < ULEN) by (apply N.mod_lt; discriminate).
    rewrite (aget_ok v (Z.of_N t) 0) by (unfold ULEN in *; lia). cbn [bind].
    rewrite (aget_ok v (Z.of_nat i) 0) by (unfold ULEN in *; lia). cbn [bind].
    destruct (aset_bytes v (Z.of_N t) (nth (Z.to_nat (Z.of_nat i)) v 0)) as (v1 & -> & L1 & B1);
      [rewrite L; unfold ULEN in *; lia|exact B|apply bytes_nth; exact B|]. cbn [bind].
    destruct (aset_bytes v1 (Z.of_nat i) (nth (Z.to_nat (Z.of_N t)) v 0)) as (v2 & -> & L2 & B2);
      [rewrite L1, L; lia|exact B1|apply bytes_nth; exact B|]. cbn [bind].
    rewrite (aget_ok key (Z.of_nat (S kp)) 0) by lia. cbn [bind].
    apply IH; try assumption; try lia; try congruence.
    destruct (N.eqb_spec (nth (Z.to_nat (Z.of_nat (S kp))) key 0) 0) as [E|E]; [lia|].
    destruct (Nat.eq_dec (S kp) 255) as [E2|E2]; [|lia].
    exfalso. apply E. rewrite E2, Nat2Z.id. exact K0.
Qed.

Lemma uvag_key_bits : forall n i g rbits b rs b', run_bits g rbits (repeat (4, 8) n) b = Ok (rs, b') ->
  exists key, uvag_key n i g rbits b = Ok (key, b') /\ length key = n /\
    forall j, (j < n)%nat -> nth j key 0 = if Nat.eqb (i + j) 255 then 0 else nth 0 (nth j rs []) 0.
Proof.
  induction n as [|n IH]; intros i g rbits b rs b' H; cbn [repeat run_bits uvag_key] in *.
  - injection H as <- <-. exists []. repeat split. intros j Hj. lia.
  - destruct (get_rand_bits g rbits 4 8 b) as [[r b1]| | |]; try discriminate. cbn [bind] in *.
    destruct (run_bits g rbits (repeat (4, 8) n) b1) as [[rs2 b2]| | |] eqn:E; try discriminate.
    cbn [bind] in H. injection H as <- <-.
    destruct (IH (S i) _ _ _ _ _ E) as (key & -> & L & K). cbn [bind].
    eexists. split; [reflexivity|]. split; [cbn; rewrite L; reflexivity|].
    intros [|j] Hj; cbn [nth]; [rewrite Nat.add_0_r; reflexivity|].
    rewrite K by lia. replace (S i + j)%nat with (i + S j)%nat by lia. reflexivity.
Qed.
