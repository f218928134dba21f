(** dab_opso2: tables of bits. *)
From Verif Require Export MissingLemmas3.
Open Scope N_scope.

Definition bits_marked (w : table) (l : list N) : Prop :=
  forall k, N.testbit (w (k / 32)) (k mod 32) = true <-> In k l.

Lemma bits_marked_nil : bits_marked cleared [].
Proof. intro k. unfold cleared. rewrite N.bits_0. split; [discriminate|intros []]. Qed.

Lemma div32_inj : forall a b, a / 32 = b / 32 -> a mod 32 = b mod 32 -> a = b.
Proof.
  intros a b D M. rewrite (N.div_mod a 32), (N.div_mod b 32) by discriminate. rewrite D, M. reflexivity.
Qed.

Lemma bits_marked_put : forall w l x, bits_marked w l ->
  bits_marked (put w (x / 32) (N.lor (w (x / 32)) (2 ^ (x mod 32)))) (l ++ [x]).
Proof.
  intros w l x H k. unfold put. rewrite in_app_iff. cbn [In]. rewrite <- (H k).
  destruct (N.eqb_spec (k / 32) (x / 32)) as [E|E].
  - rewrite N.lor_spec, N.pow2_bits_eqb. rewrite E. destruct (N.eqb_spec (x mod 32) (k mod 32)) as [F|F].
    + rewrite orb_true_r. split; [intros _; right; left; apply div32_inj; congruence|reflexivity].
    + rewrite orb_false_r. split; [tauto|]. intros [A|[A|[]]]; [exact A|]. subst. congruence.
  - split; [tauto|]. intros [A|[A|[]]]; [exact A|]. subst. congruence.
Qed.

Lemma land_pow2_hole : forall x i, hole (N.land x (2 ^ i)) = if N.testbit x i then 0 else 1.
Proof.
  intros x i. unfold hole. destruct (N.testbit x i) eqn:T.
  - destruct (N.eqb_spec (N.land x (2 ^ i)) 0) as [E|]; [|reflexivity].
    assert (B : N.testbit (N.land x (2 ^ i)) i = true) by (rewrite N.land_spec, N.pow2_bits_true, T; reflexivity).
    rewrite E, N.bits_0 in B. discriminate.
  - replace (N.land x (2 ^ i)) with 0; [reflexivity|]. symmetry. apply N.bits_inj_0. intro j.
    rewrite N.land_spec, N.pow2_bits_eqb. destruct (N.eqb_spec i j) as [<-|]; [rewrite T|rewrite andb_false_r]; reflexivity.
Qed.

Lemma bit_holes : forall w l, bits_marked w l -> (forall x, In x l -> x < 2 ^ 24) ->
  Nsum 32 (fun i => Nsum 524288 (fun j => hole (N.land (w j) (2 ^ i)))) + distinct l = 2 ^ 24.
Proof.
  intros w l M B.
  rewrite <- (holes_count (2 ^ 24) l (fun k => if N.testbit (w (k / 32)) (k mod 32) then 1 else 0) B).
  - apply (f_equal (fun z => z + distinct l)). rewrite Nsum_swap. change (2 ^ 24) with (524288 * 32). generalize 524288. intro n. rewrite Nsum_mul.
    apply Nsum_ext. intros j _. apply Nsum_ext. intros i Hi. rewrite land_pow2_hole.
    replace ((j * 32 + i) / 32) with j by (apply (N.div_unique _ 32 _ i); lia).
    replace ((j * 32 + i) mod 32) with i by (apply (N.mod_unique _ 32 j); lia).
    destruct (N.testbit (w j) i); reflexivity.
  - intros k _. rewrite <- (M k). destruct (N.testbit (w (k / 32)) (k mod 32)); split; intro H; try discriminate; try reflexivity.
    elim H. reflexivity.
Qed.

Lemma low24 : forall x, (N.shiftr x 5) mod 524288 = field x 0 24 / 32 /\ x mod 32 = field x 0 24 mod 32.
Proof.
  intro x. unfold field. rewrite N.pow_0_r, N.div_1_r. rewrite N.shiftr_div_pow2. change (2 ^ 5) with 32.
  change (2 ^ 24) with (32 * 524288). rewrite N.mod_mul_r by discriminate. split.
  - rewrite (N.mul_comm 32), N.div_add by discriminate. rewrite (N.div_small (x mod 32) 32); [reflexivity|].
    apply N.mod_lt. discriminate.
  - rewrite (N.mul_comm 32), N.mod_add by discriminate. rewrite N.mod_mod by discriminate. reflexivity.
Qed.

Lemma pair24 : forall a b, a < 2 ^ 12 -> b < 2 ^ 12 -> N.lor (w32 (N.shiftl a 12)) b = spell 12 [a; b].
Proof.
  intros a b Ha Hb. unfold spell. cbn [fold_left]. rewrite N.mul_0_l, N.add_0_l.
  rewrite <- add_lor_disjoint.
  - rewrite w32_small; [|rewrite N.shiftl_mul_pow2; change (2 ^ 12) with 4096 in *; change (2 ^ 32) with 4294967296; lia].
    rewrite N.shiftl_mul_pow2. reflexivity.
  - apply land0_testbit. intro i. rewrite testbit_w32, testbit_shiftl. destruct (N.leb_spec 12 i).
    + rewrite (testbit_lt b 12 i Hb) by assumption. rewrite andb_false_r. reflexivity.
    + rewrite !andb_false_r. reflexivity.
Qed.

Lemma div_pow : forall x a b, x < 2 ^ (a + b) -> x / 2 ^ a < 2 ^ b.
Proof.
  intros x a b H. apply N.div_lt_upper_bound; [apply N.pow_nonzero; discriminate|]. rewrite <- N.pow_add_r. exact H.
Qed.

Lemma update19 : forall x f w, x < 524288 -> update 524288 [x] f w = Ok (put w x (f (w x))).
Proof.
  intros x f w H. change 524288 with (2 ^ 19) in *. rewrite update_ok by (intros l [<-|[]]; exact H).
  rewrite spell_one. reflexivity.
Qed.

Section Generator.
Variable g : nat -> N.

Definition opso2_inv (c t : nat) (q : wstate * table) : Prop :=
  grouped g 2 2 c t (fst q) /\
  bits_marked (snd q) (map (opso2_single g c) (seq 0 t)) /\
  bits_marked (w_cells (fst q)) (map (opso2_pair g c) (seq 0 t)).

Lemma opso2_single_lt : forall c t, opso2_single g c t < 2 ^ 24.
Proof. intros. apply field_lt. Qed.
Lemma opso2_pair_lt : forall c t, opso2_pair g c t < 2 ^ 24.
Proof. intros. unfold opso2_pair. apply (spell_lt 12 [_; _]). intros l [<-|[<-|[]]]; apply field_lt. Qed.

Lemma opso2_round : forall c t q, opso2_inv c t q -> exists q', opso2_step g q = Ok q' /\ opso2_inv c (S t) q'.
Proof.
  intros c t [s w1] (G & M1 & M2). cbn [fst snd] in *. unfold opso2_step.
  change 2 with (N.of_nat 2) at 1. rewrite (grouped_step g 2 2 c t s ltac:(lia) G). cbn [fetch].
  set (b := (c + 2 * (t / 2))%nat).
  change (aget [g b; g (S b)] 0) with (Ok (g b)). change (aget [g b; g (S b)] 1) with (Ok (g (S b))). cbn [bind].
  pose proof (Nat.mod_upper_bound t 2 ltac:(lia)) as U. pose proof (Nat.div_mod t 2 ltac:(lia)) as D.
  assert (TM : w_t s mod 2 = N.of_nat (t mod 2)).
  { destruct G as (T & _). rewrite T. change 2 with (N.of_nat 2). rewrite <- Nat2N.inj_mod. reflexivity. }
  assert (SH : (if w_t s mod 2 =? 0 then 0 else 12) = 12 * N.of_nat (t mod 2)).
  { rewrite TM. revert U. generalize (t mod 2)%nat as r. intros r U.
    destruct r as [|[|r]]; [reflexivity|reflexivity|lia]. }
  assert (XX : (if w_t s mod 2 =? 0 then g b else g (S b)) = g (c + t)%nat).
  { rewrite TM. subst b. revert U D. generalize (t mod 2)%nat as r, (t / 2)%nat as q. intros r q U D.
    destruct r as [|[|r]]; [|..|lia]; cbn [N.of_nat N.eqb Pos.of_succ_nat]; f_equal; lia. }
  rewrite SH, XX. set (x := g (c + t)%nat). rewrite (shr32_ok x 5) by lia. cbn [bind].
  rewrite update19 by (apply N.mod_lt; discriminate).
  cbn [bind]. destruct (low24 x) as [L1 L2]. rewrite L1, L2.
  rewrite !shr32_ok by (clear - U; lia). cbn [bind]. change 0x0fff with (N.ones 12). rewrite !field_land.
  rewrite shl32_ok by lia. cbn [bind]. rewrite pair24 by apply field_lt.
  assert (PE : spell 12 [field (g b) (12 * N.of_nat (t mod 2)) 12; field (g (S b)) (12 * N.of_nat (t mod 2)) 12] = opso2_pair g c t).
  { unfold opso2_pair. fold b. replace (b + 1)%nat with (S b) by lia. reflexivity. }
  rewrite PE. pose proof (opso2_pair_lt c t) as PL. revert PL PE. generalize (opso2_pair g c t) as k. intros k PL PE.
  rewrite shr32_ok by lia. cbn [bind]. rewrite N.shiftr_div_pow2.
  rewrite update19 by (apply (div_pow k 5 19); exact PL).
  cbn [bind]. change (2 ^ 5) with 32.
  eexists. split; [reflexivity|]. split; [|split]; cbn [fst snd w_cells].
  - eapply grouped_next; [lia|reflexivity|cbn [w_t]|reflexivity|reflexivity].
    destruct G as (T & _). rewrite T. reflexivity.
  - rewrite (seq_snoc t), map_app. cbn [map]. apply bits_marked_put. exact M1.
  - rewrite (seq_snoc t), map_app. cbn [map].
    replace (opso2_pair g c t) with k; [apply bits_marked_put; exact M2|].
    rewrite <- PE. unfold opso2_pair. fold b. replace (b + 1)%nat with (S b) by lia. reflexivity.
Qed.

Lemma opso2_count : forall n c, exists m1 m2,
  opso2_missing g n c = Ok (m1, m2, (c + 2 * ((n + 1) / 2))%nat) /\
  m1 + distinct (map (opso2_single g c) (seq 0 n)) = 2 ^ 24 /\
  m2 + distinct (map (opso2_pair g c) (seq 0 n)) = 2 ^ 24.
Proof.
  intros n c. unfold opso2_missing.
  destruct (iter_inv _ (opso2_step g) (opso2_inv c) n (wstart 2 c, cleared)) as ([s w1] & E & G & M1 & M2).
  - split; [apply grouped_start; lia|]. split; apply bits_marked_nil.
  - intros t s _ A. apply opso2_round. exact A.
  - rewrite E. cbn [bind fst snd] in *. eexists. eexists. split; [|split].
    + destruct G as (_ & C & _). rewrite C. reflexivity.
    + apply bit_holes; [exact M1|]. intros x I. eapply in_words; [|exact I]. apply opso2_single_lt.
    + apply bit_holes; [exact M2|]. intros x I. eapply in_words; [|exact I]. apply opso2_pair_lt.
Qed.
End Generator.
