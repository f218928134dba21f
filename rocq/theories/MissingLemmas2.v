(** The missing-word tests one by one. *)
From Verif Require Export MissingLemmas.
Open Scope N_scope.

Lemma seq_snoc : forall n, seq 0 (S n) = seq 0 n ++ [n].
Proof. intro n. rewrite seq_S. reflexivity. Qed.

Lemma flat_ok : forall b letters acc, (forall l, In l letters -> l < 2 ^ b) ->
  flat (2 ^ b) letters acc = Ok (fold_left (fun a l => a * 2 ^ b + l) letters acc).
Proof.
  induction letters as [|l r IH]; intros acc H; [reflexivity|]. cbn [flat fold_left].
  pose proof (H l (or_introl eq_refl)). replace (l <? 2 ^ b) with true by lia.
  apply IH. intros x I. apply H. right. exact I.
Qed.

Lemma spell_lt : forall b letters, (forall l, In l letters -> l < 2 ^ b) ->
  spell b letters < 2 ^ (b * N.of_nat (length letters)).
Proof.
  intros b letters. unfold spell.
  assert (G : forall acc k, acc < 2 ^ (b * k) -> (forall l, In l letters -> l < 2 ^ b) ->
     fold_left (fun a l => a * 2 ^ b + l) letters acc < 2 ^ (b * (k + N.of_nat (length letters)))).
  { induction letters as [|l r IH]; intros acc k A H; cbn [fold_left length].
    - rewrite N.add_0_r. exact A.
    - replace (k + N.of_nat (S (length r))) with ((k + 1) + N.of_nat (length r)) by lia.
      apply IH; [|intros x I; apply H; right; exact I].
      rewrite N.mul_add_distr_l, N.mul_1_r, N.pow_add_r. pose proof (H l (or_introl eq_refl)). nia. }
  intro H. apply (G 0 0); [rewrite N.mul_0_r; reflexivity|exact H].
Qed.

Lemma update_ok : forall b letters f w, (forall l, In l letters -> l < 2 ^ b) ->
  update (2 ^ b) letters f w = Ok (put w (spell b letters) (f (w (spell b letters)))).
Proof. intros. unfold update. rewrite flat_ok by assumption. reflexivity. Qed.

Section Generator.
Variable g : nat -> N.

(** ** OPSO *)
Lemma opso_word_lt : forall c t, opso_word g c t < 2 ^ 20.
Proof.
  intros. unfold opso_word. apply (spell_lt 10 [_; _]). intros l [<-|[<-|[]]]; apply field_lt.
Qed.

Lemma opso_round : forall c t s, grouped g 2 2 c t s -> marked (w_cells s) (map (opso_word g c) (seq 0 t)) ->
  exists s', opso_step g s = Ok s' /\ grouped g 2 2 c (S t) s' /\
    marked (w_cells s') (map (opso_word g c) (seq 0 (S t))).
Proof.
  intros c t s G M. unfold opso_step. change 2 with (N.of_nat 2) at 1. rewrite (grouped_step g 2 2 c t s ltac:(lia) G).
  cbn [fetch].
  assert (SH : (if w_t s mod 2 =? 0 then 0 else 10) = 10 * N.of_nat (t mod 2)).
  { destruct G as (T & _ & _). rewrite T. change 2 with (N.of_nat 2). rewrite <- Nat2N.inj_mod.
    pose proof (Nat.mod_upper_bound t 2 ltac:(lia)) as U. revert U. generalize (t mod 2)%nat as r. intros r U.
    destruct r as [|[|r]]; [reflexivity|reflexivity|lia]. }
  rewrite SH. pose proof (Nat.mod_upper_bound t 2 ltac:(lia)) as U.
  change (aget [g (c + 2 * (t / 2))%nat; g (S (c + 2 * (t / 2)))] 0) with (Ok (g (c + 2 * (t / 2))%nat)).
  change (aget [g (c + 2 * (t / 2))%nat; g (S (c + 2 * (t / 2)))] 1) with (Ok (g (S (c + 2 * (t / 2))))).
  cbn [bind]. rewrite !shr32_ok by (clear - U; lia). cbn [bind].
  change 1024 with (2 ^ 10). change 0x3ff with (N.ones 10). rewrite !field_land.
  rewrite update_ok by (intros l [<-|[<-|[]]]; apply field_lt). cbn [bind].
  eexists. split; [reflexivity|]. split.
  - eapply grouped_next; [lia|reflexivity|cbn [w_t]|reflexivity|reflexivity].
    destruct G as (T & _). rewrite T. reflexivity.
  - cbn [w_cells]. rewrite (seq_snoc t), map_app. cbn [map]. unfold opso_word at 2.
    replace (c + 2 * (t / 2) + 1)%nat with (S (c + 2 * (t / 2))) by lia. apply marked_put. exact M.
Qed.

Lemma in_words : forall (f : nat -> N) n x B, (forall t, f t < B) -> In x (map f (seq 0 n)) -> x < B.
Proof. intros f n x B H I. apply in_map_iff in I. destruct I as (t & <- & _). apply H. Qed.

Lemma opso_count : forall n c, exists m,
  opso_missing g n c = Ok (m, (c + 2 * ((n + 1) / 2))%nat) /\ m + distinct (map (opso_word g c) (seq 0 n)) = 2 ^ 20.
Proof.
  intros n c. unfold opso_missing.
  destruct (iter_inv _ (opso_step g)
     (fun t s => grouped g 2 2 c t s /\ marked (w_cells s) (map (opso_word g c) (seq 0 t))) n (wstart 2 c)) as (s & E & G & M).
  - split; [apply grouped_start; lia|apply marked_nil].
  - intros t s _ [A B]. apply opso_round; assumption.
  - rewrite E. cbn [bind]. eexists. split.
    + destruct G as (_ & C & _). rewrite C. reflexivity.
    + rewrite <- (holes_count (2 ^ 20) (map (opso_word g c) (seq 0 n)) (w_cells s)).
      * match goal with |- _ + ?d = _ => apply (f_equal (fun z => z + d)) end. change (2 ^ 20) with (1024 * 1024). rewrite Nsum_mul. reflexivity.
      * intros x I. eapply in_words; [|exact I]. apply opso_word_lt.
      * intros k _. apply M.
Qed.

(** ** OQSO *)
Lemma oqso_word_lt : forall c t, oqso_word g c t < 2 ^ 20.
Proof.
  intros. unfold oqso_word. cbn [seq map]. apply (spell_lt 5 [_; _; _; _]).
  intros l [<-|[<-|[<-|[<-|[]]]]]; apply field_lt.
Qed.

Definition oqso_inv (c t : nat) (s : wstate) : Prop :=
  grouped g 6 4 c t s /\ ((t mod 6 <> 0)%nat -> w_off s = 5 * N.of_nat (t mod 6)) /\
  marked (w_cells s) (map (oqso_word g c) (seq 0 t)).

Lemma mod_next : forall p t, (0 < p)%nat -> (S t mod p <> 0 -> S t mod p = S (t mod p))%nat.
Proof.
  intros p t Hp R. pose proof (same_group p t Hp R) as D. rewrite !Nat.mod_eq by lia. rewrite D.
  pose proof (Nat.mul_div_le t p ltac:(lia)). lia.
Qed.

Lemma oqso_round : forall c t s, oqso_inv c t s -> exists s', oqso_step g s = Ok s' /\ oqso_inv c (S t) s'.
Proof.
  intros c t s (G & O & M). unfold oqso_step.
  assert (X : (if w_t s mod 6 =? 0 then (fetch g 4 (w_c s), (w_c s + 4)%nat, 0) else (w_regs s, w_c s, w_off s))
            = (fetch g 4 (c + 4 * (t / 6)), (c + 4 * ((S t + (6 - 1)) / 6))%nat, 5 * N.of_nat (t mod 6))).
  { pose proof (grouped_step g 6 4 c t s ltac:(lia) G) as E. change (N.of_nat 6) with 6 in E.
    destruct G as (T & _). assert (TM : w_t s mod 6 = N.of_nat (t mod 6)).
    { rewrite T. change 6 with (N.of_nat 6). rewrite <- Nat2N.inj_mod. reflexivity. }
    rewrite TM in *. destruct (N.eqb_spec (N.of_nat (t mod 6)) 0) as [Z|Z].
    - rewrite Z. exact (f_equal (fun q => (q, 0)) E).
    - rewrite O by lia. exact (f_equal (fun q => (q, 5 * N.of_nat (t mod 6))) E). }
  rewrite X. pose proof (Nat.mod_upper_bound t 6 ltac:(lia)) as U. set (b := (c + 4 * (t / 6))%nat) in *.
  cbn [fetch].
  change (aget [g b; g (S b); g (S (S b)); g (S (S (S b)))] 0) with (Ok (g b)).
  change (aget [g b; g (S b); g (S (S b)); g (S (S (S b)))] 1) with (Ok (g (S b))).
  change (aget [g b; g (S b); g (S (S b)); g (S (S (S b)))] 2) with (Ok (g (S (S b)))).
  change (aget [g b; g (S b); g (S (S b)); g (S (S (S b)))] 3) with (Ok (g (S (S (S b))))).
  cbn [bind]. rewrite !shr32_ok by (clear - U; lia). cbn [bind].
  change 32 with (2 ^ 5). change 0x1f with (N.ones 5). rewrite !field_land.
  rewrite update_ok by (intros l [<-|[<-|[<-|[<-|[]]]]]; apply field_lt). cbn [bind].
  eexists. split; [reflexivity|]. split; [|split].
  - eapply grouped_next; [lia|reflexivity|cbn [w_t]|reflexivity|reflexivity].
    destruct G as (T & _). rewrite T. reflexivity.
  - intro R. cbn [w_off]. rewrite (mod_next 6 t ltac:(lia) R). unfold add32. rewrite w32_small.
    + lia.
    + change (2 ^ 32) with 4294967296. clear - U. lia.
  - cbn [w_cells]. rewrite (seq_snoc t), map_app. cbn [map]. unfold oqso_word at 2. fold b. cbn [seq map].
    rewrite Nat.add_0_r. replace (b + 1)%nat with (S b) by lia. replace (b + 2)%nat with (S (S b)) by lia.
    replace (b + 3)%nat with (S (S (S b))) by lia. apply marked_put. exact M.
Qed.

Lemma oqso_count : forall n c, exists m,
  oqso_missing g n c = Ok (m, (c + 4 * ((n + 5) / 6))%nat) /\ m + distinct (map (oqso_word g c) (seq 0 n)) = 2 ^ 20.
Proof.
  intros n c. unfold oqso_missing.
  destruct (iter_inv _ (oqso_step g) (oqso_inv c) n (wstart 4 c)) as (s & E & G & _ & M).
  - split; [apply grouped_start; lia|]. split; [|apply marked_nil]. intro H. elim H. reflexivity.
  - intros t s _ A. apply oqso_round. exact A.
  - rewrite E. cbn [bind]. eexists. split.
    + destruct G as (_ & C & _). rewrite C. reflexivity.
    + rewrite <- (holes_count (2 ^ 20) (map (oqso_word g c) (seq 0 n)) (w_cells s)).
      * match goal with |- _ + ?d = _ => apply (f_equal (fun z => z + d)) end. change (2 ^ 20) with (32 * (32 * (32 * 32))). rewrite Nsum_mul. apply Nsum_ext. intros i _.
        rewrite Nsum_mul. apply Nsum_ext. intros j _. rewrite Nsum_mul. apply Nsum_ext. intros k _.
        apply Nsum_ext. intros l _. f_equal. f_equal. lia.
      * intros x I. eapply in_words; [|exact I]. apply oqso_word_lt.
      * intros k _. apply M.
Qed.

(** ** DNA *)
Lemma dna_letters_ok : forall w o regs, 1 <= w -> w <= 32 -> (forall x, In x regs -> x < 2 ^ w) ->
  dna_letters w o regs = Ok (map (fun x => around w x o 2) regs).
Proof.
  induction regs as [|x r IH]; intros H1 H2 H; [reflexivity|]. cbn [dna_letters map].
  change 0x3 with (N.ones (N.of_nat 2)). change 2 with (N.of_nat 2) at 1.
  rewrite ntuple_from_uint_ok by (lia || (apply H; left; reflexivity)). cbn [bind].
  rewrite IH by (assumption || (intros y I; apply H; right; exact I)). reflexivity.
Qed.

Lemma fetch_map : forall n c, fetch g n c = map (fun i => g (c + i)%nat) (seq 0 n).
Proof.
  intros n. induction n as [|n IH]; intro c; [reflexivity|]. cbn [fetch seq map]. rewrite Nat.add_0_r. f_equal.
  rewrite IH, <- seq_shift, map_map. apply map_ext. intro i. f_equal. lia.
Qed.

Lemma dna_word_lt : forall w c t, dna_word w g c t < 2 ^ 20.
Proof.
  intros. unfold dna_word. eapply N.lt_le_trans; [apply spell_lt|].
  - intros l I. apply in_map_iff in I. destruct I as (i & <- & _). apply around_lt.
  - rewrite map_length, seq_length. change (2 * N.of_nat 10) with 20. lia.
Qed.

Definition dna_inv (w : N) (c t : nat) (s : wstate) : Prop :=
  grouped g 32 10 c t s /\ ((t mod 32 <> 0)%nat -> w_off s = N.of_nat (t mod 32)) /\
  counted (w_cells s) (map (dna_word w g c) (seq 0 t)).

Lemma dna_round : forall w c t s, 1 <= w -> w <= 32 -> (forall i, g i < 2 ^ w) ->
  dna_inv w c t s -> exists s', dna_step g w s = Ok s' /\ dna_inv w c (S t) s'.
Proof.
  intros w c t s W1 W2 B (G & O & M). unfold dna_step.
  assert (X : (if w_t s mod 32 =? 0 then (fetch g 10 (w_c s), (w_c s + 10)%nat, 0) else (w_regs s, w_c s, w_off s))
            = (fetch g 10 (c + 10 * (t / 32)), (c + 10 * ((S t + (32 - 1)) / 32))%nat, N.of_nat (t mod 32))).
  { pose proof (grouped_step g 32 10 c t s ltac:(lia) G) as E. change (N.of_nat 32) with 32 in E.
    destruct G as (T & _). assert (TM : w_t s mod 32 = N.of_nat (t mod 32)).
    { rewrite T. change 32 with (N.of_nat 32). rewrite <- Nat2N.inj_mod. reflexivity. }
    rewrite TM in *. destruct (N.eqb_spec (N.of_nat (t mod 32)) 0) as [Z|Z].
    - rewrite Z. exact (f_equal (fun q => (q, 0)) E).
    - rewrite O by lia. exact (f_equal (fun q => (q, N.of_nat (t mod 32))) E). }
  rewrite X. pose proof (Nat.mod_upper_bound t 32 ltac:(lia)) as U.
  rewrite fetch_map, dna_letters_ok by (assumption || (intros x I; apply in_map_iff in I; destruct I as (i & <- & _); apply B)).
  cbn [bind]. rewrite map_map. change 4 with (2 ^ 2). rewrite update_ok.
  2: { intros l I. apply in_map_iff in I. destruct I as (i & <- & _). apply around_lt. }
  cbn [bind]. eexists. split; [reflexivity|]. split; [|split].
  - eapply grouped_next; [lia|reflexivity|cbn [w_t]|reflexivity|cbn [w_regs]; rewrite fetch_map; reflexivity].
    destruct G as (T & _). rewrite T. reflexivity.
  - intro R. cbn [w_off]. rewrite (mod_next 32 t ltac:(lia) R). unfold add32. rewrite w32_small.
    + lia.
    + change (2 ^ 32) with 4294967296. clear - U. lia.
  - cbn [w_cells]. rewrite (seq_snoc t), map_app. cbn [map]. apply counted_put. exact M.
Qed.

Lemma dna_count : forall w n c, 1 <= w -> w <= 32 -> (forall i, g i < 2 ^ w) -> exists m,
  dna_missing g w n c = Ok (m, (c + 11 + 10 * ((n + 31) / 32))%nat) /\
  m + distinct (seen (map (dna_word w g (c + 11)) (seq 0 n))) = 2 ^ 20.
Proof.
  intros w n c W1 W2 B. unfold dna_missing.
  destruct (iter_inv _ (dna_step g w) (dna_inv w (c + 11)) n (wstart 10 (c + 11))) as (s & E & G & _ & M).
  - split; [apply grouped_start; lia|]. split; [|apply counted_nil]. intro H. elim H. reflexivity.
  - intros t s _ A. apply dna_round; assumption.
  - rewrite E. cbn [bind]. eexists. split.
    + destruct G as (_ & C & _). rewrite C. reflexivity.
    + apply counted_holes; [exact M|]. intros x I. eapply in_words; [|exact I]. intro t. apply dna_word_lt.
Qed.
End Generator.
