(** The program of the second tree-filling test follows the coin-tossing tree. *)
From Coq Require Import List NArith ZArith Lia.
From Verif Require Import CoinSpec CoinLaw BaseLemmas TallyLemmas MissingLemmas TreeModel TreeSpec TreeLemmas TreeLemmas2.
Import ListNotations.
Open Scope N_scope.

Fixpoint srun {A} (c : coin A) (s : nat -> bool) (n : nat) : A * nat :=
  match c with Ret a => (a, n) | Flip f => srun (f (s n)) s (S n) end.
Lemma srun_bind {A B} (c : coin A) (k : A -> coin B) s : forall n, srun (cbind c k) s n = srun (k (fst (srun c s n))) s (snd (srun c s n)).
Proof. induction c as [a|f IH]; intro n; cbn [cbind srun]; [reflexivity|apply IH]. Qed.
Lemma run_srun {A} (c : coin A) s : forall n bs k, within n c -> (n <= length bs)%nat -> (forall j, (j < length bs)%nat -> nth j bs false = s (k + j)%nat) ->
  exists rest, run c bs = Some (fst (srun c s k), rest).
Proof.
  induction c as [a|f IH]; intros n bs k W L E; cbn [run srun]; [eexists; reflexivity|].
  destruct n as [|n]; [destruct W|]. destruct bs as [|b bs]; [cbn in L; lia|]. cbn [length] in L, E.
  pose proof (E 0%nat ltac:(lia)) as E0. cbn in E0. rewrite Nat.add_0_r in E0. subst b. apply (IH _ n).
  - cbn in W. destruct W. destruct (s k); assumption.
  - lia.
  - intros j J. specialize (E (S j) ltac:(lia)). cbn in E. rewrite E. f_equal. lia.
Qed.

(** ** The array holds the marked nodes *)
Fixpoint rep2 (arr : list N) (k : nat) (i : N) (t : dtree) : Prop :=
  (match t with Blank => nth (N.to_nat i) arr 0 = 0 | Marked _ _ => nth (N.to_nat i) arr 0 <> 0 end) /\
  match k with
  | O => True
  | S k => match t with
           | Blank => rep2 arr k (i + 2 ^ N.of_nat k) Blank /\ rep2 arr k (i - 2 ^ N.of_nat k) Blank
           | Marked l r => rep2 arr k (i + 2 ^ N.of_nat k) r /\ rep2 arr k (i - 2 ^ N.of_nat k) l
           end
  end.
Lemma rep2_set : forall k arr i t p x, outside k i p -> 2 ^ N.of_nat k <= i + 1 -> rep2 arr k i t -> rep2 (set_nth arr (N.to_nat p) x) k i t.
Proof.
  induction k as [|k IH]; intros arr i t p x O LE R; unfold outside in O.
  - change (2 ^ N.of_nat 0) with 1 in *. cbn [rep2] in *. rewrite nth_set_nth_ne by lia. exact R.
  - rewrite pow_S in O, LE. pose proof (pow_pos k) as P. cbn [rep2] in *. rewrite nth_set_nth_ne by lia.
    assert (R1 : forall t, rep2 arr k (i + 2 ^ N.of_nat k) t -> rep2 (set_nth arr (N.to_nat p) x) k (i + 2 ^ N.of_nat k) t).
    { intros t' Q. apply IH; auto; unfold outside; lia. }
    assert (R2 : forall t, rep2 arr k (i - 2 ^ N.of_nat k) t -> rep2 (set_nth arr (N.to_nat p) x) k (i - 2 ^ N.of_nat k) t).
    { intros t' Q. apply IH; auto; unfold outside; lia. }
    destruct R as [A B]. split; [exact A|]. destruct t; destruct B; split; auto.
Qed.
Lemma rep2_blank : forall n k i, rep2 (repeat 0 n) k i Blank.
Proof. intros n. induction k as [|k IH]; intro i; cbn [rep2]; rewrite nth_repeat; auto. Qed.
Lemma rep2_mark k arr i : (N.to_nat i < length arr)%nat -> 2 ^ N.of_nat k <= i + 1 -> rep2 arr k i Blank -> rep2 (set_nth arr (N.to_nat i) 1) k i (Marked Blank Blank).
Proof.
  intros L LE R. destruct k as [|k]; cbn [rep2] in *.
  - rewrite nth_set_nth_eq by exact L. split; [discriminate|exact I].
  - rewrite nth_set_nth_eq by exact L. split; [discriminate|]. rewrite pow_S in LE. pose proof (pow_pos k). destruct R as [_ [A B]]. split; apply rep2_set; auto; unfold outside; lia.
Qed.
Definition kids (arr : list N) (k : nat) (i : N) (t : dtree) : Prop :=
  exists l r, t = Marked l r /\ rep2 arr k (i + 2 ^ N.of_nat k) r /\ rep2 arr k (i - 2 ^ N.of_nat k) l.

Section Generator.
Variables (g : nat -> N) (w : N) (c : nat).
Hypothesis w1 : 1 <= w.
Hypothesis w2 : w <= 32.
Lemma next_here n : next_bit g w (at_bit g w c n) = at_bit g w c (S n).
Proof. apply (next_at g g w w w1 w2 w1 w2 c c (fun _ => eq_refl) g w c n w1 w2). Qed.
Let s : nat -> bool := lsb_stream (fun k => g (c + k)%nat) w.

Lemma path_descend : forall k f arr i t n, (k < 6)%nat -> (k < f)%nat -> length arr = 128%nat -> node 7 (S k) i -> kids arr k i t ->
  let '(x, n') := srun (descend (S (S k)) t) s n in
  match x with
  | inl t' => exists p, path g f w arr i (2 ^ N.of_nat k) (at_bit g w c n) = Ok ((-1)%Z, set_nth arr (N.to_nat p) 1, at_bit g w c n') /\
      kids (set_nth arr (N.to_nat p) 1) k i t' /\ ~ outside (S k) i p /\ p <> i
  | inr p => path g f w arr i (2 ^ N.of_nat k) (at_bit g w c n) = Ok (Z.of_N (i + 1 - 2 ^ N.of_nat (S k) + 2 * p), arr, at_bit g w c n') /\ p < 2 ^ N.of_nat (S k)
  end.
Proof.
  induction k as [|k IH]; intros f arr i t n K6 KF LA NI (l & r & -> & R1 & R2); (destruct f as [|f]; [lia|]); cbn [path]; rewrite low_bit, next_here; fold s; rewrite descend_marked; cbn [srun]; unfold insert_bit.
  - destruct (node_kids 7 0 i ltac:(lia) NI) as (K1 & K2 & K3); pose proof (node_lt _ _ _ K1) as N1; pose proof (node_lt _ _ _ K2) as N2; change (2 ^ N.of_nat 7) with 128 in N1, N2.
    change (2 ^ N.of_nat 0) with 1 in *. change (1 / 2) with 0. change (2 ^ N.of_nat 1) with 2.
    assert (A1 : add32 i 1 = i + 1) by (unfold add32; apply w32_small; lia).
    assert (A2 : sub32 i 1 = i - 1) by (apply sub32_small; lia). rewrite A1, A2.
    destruct (s n); cbn [N.b2n N.eqb negb]; rewrite srun_bind.
    + cbn [rep2] in R1. destruct r as [|rl rr]; cbn [descend srun fst snd]; destruct R1 as [C _].
      * rewrite (aget_ok arr _ 0) by lia. cbn [bind]. replace (Z.to_nat (Z.of_N (i + 1))) with (N.to_nat (i + 1)) by lia. rewrite C. cbn [N.eqb].
        rewrite aset_ok by lia. cbn [bind]. replace (Z.to_nat (Z.of_N (i + 1))) with (N.to_nat (i + 1)) by lia. cbn [Z.eqb].
        exists (i + 1). split; [reflexivity|]. split; [|unfold outside; change (2 ^ N.of_nat 1) with 2; lia]. exists l, (Marked Blank Blank). split; [reflexivity|]. change (2 ^ N.of_nat 0) with 1.
        split; [apply rep2_mark; [lia|change (2 ^ N.of_nat 0) with 1; lia|split; auto]|apply rep2_set; [unfold outside; change (2 ^ N.of_nat 0) with 1; lia|change (2 ^ N.of_nat 0) with 1; lia|exact R2]].
      * rewrite (aget_ok arr _ 0) by lia. cbn [bind]. replace (Z.to_nat (Z.of_N (i + 1))) with (N.to_nat (i + 1)) by lia. rewrite (proj2 (N.eqb_neq _ 0) C). cbn [N.eqb bind].
        rewrite (proj2 (Z.eqb_neq (Z.of_N (i + 1)) (-2))) by lia. change (2 ^ N.of_nat 0 + 0) with 1. split; [do 4 f_equal; lia|lia].
    + cbn [rep2] in R2. destruct l as [|ll lr]; cbn [descend srun fst snd]; destruct R2 as [C _].
      * rewrite (aget_ok arr _ 0) by lia. cbn [bind]. replace (Z.to_nat (Z.of_N (i - 1))) with (N.to_nat (i - 1)) by lia. rewrite C. cbn [N.eqb].
        rewrite aset_ok by lia. cbn [bind]. replace (Z.to_nat (Z.of_N (i - 1))) with (N.to_nat (i - 1)) by lia. cbn [Z.eqb].
        exists (i - 1). split; [reflexivity|]. split; [|unfold outside; change (2 ^ N.of_nat 1) with 2; lia]. exists (Marked Blank Blank), r. split; [reflexivity|]. change (2 ^ N.of_nat 0) with 1.
        split; [apply rep2_set; [unfold outside; change (2 ^ N.of_nat 0) with 1; lia|change (2 ^ N.of_nat 0) with 1; lia|exact R1]|apply rep2_mark; [lia|change (2 ^ N.of_nat 0) with 1; lia|split; auto]].
      * rewrite (aget_ok arr _ 0) by lia. cbn [bind]. replace (Z.to_nat (Z.of_N (i - 1))) with (N.to_nat (i - 1)) by lia. rewrite (proj2 (N.eqb_neq _ 0) C). cbn [N.eqb bind].
        rewrite (proj2 (Z.eqb_neq (Z.of_N (i - 1)) (-2))) by lia. split; [do 4 f_equal; lia|lia].
  - destruct (node_kids 7 (S k) i ltac:(lia) NI) as (K1 & K2 & K3); pose proof (node_lt _ _ _ K1) as N1; pose proof (node_lt _ _ _ K2) as N2; change (2 ^ N.of_nat 7) with 128 in N1, N2.
    assert (D : 2 ^ N.of_nat (S k) / 2 = 2 ^ N.of_nat k) by (rewrite pow_S, N.mul_comm; apply N.div_mul; discriminate). rewrite D.
    assert (A1 : add32 i (2 ^ N.of_nat (S k)) = i + 2 ^ N.of_nat (S k)) by (unfold add32; apply w32_small; lia).
    assert (A2 : sub32 i (2 ^ N.of_nat (S k)) = i - 2 ^ N.of_nat (S k)) by (apply sub32_small; lia). rewrite A1, A2.
    assert (LE : 2 ^ N.of_nat (S (S k)) <= i + 1). { destruct NI as (a & NI & _). rewrite NI. nia. }
    pose proof (pow_pos k) as PK. rewrite (pow_S (S k)) in LE |- *.
    assert (LE2 : 2 * 2 ^ N.of_nat k = 2 ^ N.of_nat (S k)) by (symmetry; apply pow_S).
    destruct (s n); cbn [N.b2n N.eqb negb]; rewrite srun_bind.
    + set (j := i + 2 ^ N.of_nat (S k)) in *. rewrite (aget_ok arr _ 0) by lia. cbn [bind]. replace (Z.to_nat (Z.of_N j)) with (N.to_nat j) by lia.
      destruct r as [|rl rr].
      * change (srun (descend (S (S k)) Blank) s (S n)) with (inl (Marked Blank Blank) : dtree + N, S n). cbn [fst snd srun].
        pose proof R1 as [C _]. rewrite C. cbn [N.eqb]. rewrite aset_ok by lia. cbn [bind Z.eqb]. replace (Z.to_nat (Z.of_N j)) with (N.to_nat j) by lia.
        exists j. split; [reflexivity|]. split; [|unfold outside; rewrite (pow_S (S k)); lia]. exists l, (Marked Blank Blank). split; [reflexivity|]. fold j.
        split; [apply rep2_mark; [lia|lia|exact R1]|apply rep2_set; [unfold outside; lia|lia|exact R2]].
      * pose proof R1 as [C RR]. rewrite (proj2 (N.eqb_neq _ 0) C). rewrite (proj2 (N.eqb_neq (2 ^ N.of_nat k) 0)) by lia. cbn [bind Z.eqb Pos.eqb].
        specialize (IH f arr j (Marked rl rr) (S n) ltac:(lia) ltac:(lia) LA K1 ltac:(exists rl, rr; split; [reflexivity|exact RR])).
        destruct (srun (descend (S (S k)) (Marked rl rr)) s (S n)) as [[t'|p] n']; cbn [fst snd srun].
        -- destruct IH as (p & E & KD & O & PJ). exists p. split; [exact E|]. split; [|unfold outside in *; rewrite (pow_S (S k)); lia].
           exists l, t'. split; [reflexivity|]. fold j. destruct KD as (a & b & -> & Q1 & Q2). split.
           ++ cbn [rep2]. split; [rewrite nth_set_nth_ne by lia; exact C|]. split; assumption.
           ++ apply rep2_set; [unfold outside in *; lia|lia|exact R2].
        -- destruct IH as [E PB]. rewrite E. split; [do 4 f_equal; lia|lia].
    + set (j := i - 2 ^ N.of_nat (S k)) in *. rewrite (aget_ok arr _ 0) by lia. cbn [bind]. replace (Z.to_nat (Z.of_N j)) with (N.to_nat j) by lia.
      destruct l as [|rl rr].
      * change (srun (descend (S (S k)) Blank) s (S n)) with (inl (Marked Blank Blank) : dtree + N, S n). cbn [fst snd srun].
        pose proof R2 as [C _]. rewrite C. cbn [N.eqb]. rewrite aset_ok by lia. cbn [bind Z.eqb]. replace (Z.to_nat (Z.of_N j)) with (N.to_nat j) by lia.
        exists j. split; [reflexivity|]. split; [|unfold outside; rewrite (pow_S (S k)); lia]. exists (Marked Blank Blank), r. split; [reflexivity|]. fold j.
        split; [apply rep2_set; [unfold outside; lia|lia|exact R1]|apply rep2_mark; [lia|lia|exact R2]].
      * pose proof R2 as [C RR]. rewrite (proj2 (N.eqb_neq _ 0) C). rewrite (proj2 (N.eqb_neq (2 ^ N.of_nat k) 0)) by lia. cbn [bind Z.eqb Pos.eqb].
        specialize (IH f arr j (Marked rl rr) (S n) ltac:(lia) ltac:(lia) LA K2 ltac:(exists rl, rr; split; [reflexivity|exact RR])).
        destruct (srun (descend (S (S k)) (Marked rl rr)) s (S n)) as [[t'|p] n']; cbn [fst snd srun].
        -- destruct IH as (p & E & KD & O & PJ). exists p. split; [exact E|]. split; [|unfold outside in *; rewrite (pow_S (S k)); lia].
           exists t', r. split; [reflexivity|]. fold j. destruct KD as (a & b & -> & Q1 & Q2). split.
           ++ apply rep2_set; [unfold outside in *; lia|lia|exact R1].
           ++ cbn [rep2]. split; [rewrite nth_set_nth_ne by lia; exact C|]. split; assumption.
        -- destruct IH as [E PB]. rewrite E. split; [do 4 f_equal; lia|lia].
Qed.

Lemma tree2_after : forall f arr i st ret n st', tree2 g f 128 w arr i st = Ok (Some (ret, n), st') -> i + 1 <= n.
Proof.
  induction f as [|f IH]; intros arr i st ret n st' E; [discriminate|]. cbn [tree2] in E. destruct (_ <? i); [discriminate|].
  destruct (path _ _ _ _ _ _ _) as [[[r a] s']| | |]; cbn [bind] in E; try discriminate. destruct (r =? -1)%Z; [apply IH in E; lia|]. injection E as _ <- _. lia.
Qed.
Lemma tree2_fill : forall f F arr t m n, (f < F)%nat -> (m + f <= 127)%nat -> length arr = 128%nat -> kids arr 5 63 t ->
  let '(x, n') := srun (fill f 7 t m) s n in
  match x with
  | Some (k, p) => tree2 g F 128 w arr (N.of_nat m) (at_bit g w c n) = Ok (Some (Z.of_N (2 * p), N.of_nat k), at_bit g w c n') /\ (k <= m + f)%nat /\ p < 64
  | None => exists arr', tree2 g F 128 w arr (N.of_nat m) (at_bit g w c n) = tree2 g (F - f) 128 w arr' (N.of_nat (m + f)) (at_bit g w c n')
  end.
Proof.
  induction f as [|f IH]; intros F arr t m n FF MF LA KD.
  - cbn [fill srun]. exists arr. rewrite Nat.sub_0_r, Nat.add_0_r. reflexivity.
  - destruct F as [|F]; [lia|]. cbn [fill]. rewrite srun_bind. cbn [tree2]. change (128 * 2) with 256. rewrite (proj2 (N.ltb_ge 256 (N.of_nat m))) by lia.
    change (128 / 2 - 1) with 63. change ((63 + 1) / 2) with (2 ^ N.of_nat 5).
    pose proof (path_descend 5 33 arr 63 t n ltac:(lia) ltac:(lia) LA ltac:(exists 0; split; reflexivity) KD) as P.
    destruct (srun (descend 7 t) s n) as [[t'|p] n']; cbn [fst snd].
    + destruct P as (p & E & KD' & _). rewrite E. cbn [bind Z.eqb Pos.eqb]. replace (N.of_nat m + 1) with (N.of_nat (S m)) by lia.
      specialize (IH F (set_nth arr (N.to_nat p) 1) t' (S m) n' ltac:(lia) ltac:(lia) ltac:(rewrite set_nth_length; exact LA) KD').
      destruct (srun (fill f 7 t' (S m)) s n') as [[[k q]|] n2].
      * destruct IH as (E2 & A & B). split; [exact E2|]. split; [lia|exact B].
      * destruct IH as (arr' & E2). exists arr'. rewrite E2. replace (S m + f)%nat with (m + S f)%nat by lia. reflexivity.
    + destruct P as [E PB]. cbn [srun]. rewrite E. cbn [bind]. change (2 ^ N.of_nat 6) with 64 in *. rewrite (proj2 (Z.eqb_neq _ (-1))) by lia.
      split; [|split; [lia|exact PB]]. replace (63 + 1 - 64 + 2 * p) with (2 * p) by lia. replace (N.of_nat m + 1) with (N.of_nat (S m)) by lia. reflexivity.
Qed.
Lemma tree2_coin n : exists k p n', srun one_tree s n = (Some (k, p), n') /\ (1 <= k <= 127)%nat /\ p < 64 /\
  tree2 g (N.to_nat (128 * 2) + 2) 128 w (repeat 0 (N.to_nat 128)) 0 (at_bit g w c n) = Ok (Some (Z.of_N (2 * p), N.of_nat k), at_bit g w c n').
Proof.
  assert (KD : kids (repeat 0 (N.to_nat 128)) 5 63 (Marked Blank Blank)) by (exists Blank, Blank; split; [reflexivity|]; split; apply rep2_blank).
  destruct (tree2_ok g w (N.to_nat (128 * 2) + 2) (repeat 0 (N.to_nat 128)) 0 (at_bit g w c n)) as (ret & k & s' & E & R1 & R2 & N1 & N2); [reflexivity|vm_compute; reflexivity|lia|].
  pose proof (tree2_fill 127 (N.to_nat (128 * 2) + 2) (repeat 0 (N.to_nat 128)) (Marked Blank Blank) 0 n ltac:(lia) ltac:(lia) eq_refl KD) as P.
  fold one_tree in P. change (N.of_nat 0) with 0 in P. destruct (srun one_tree s n) as [[[k' p]|] n'].
  - destruct P as (E2 & A & B). exists k', p, n'. split; [reflexivity|]. split; [|split; [exact B|exact E2]]. apply tree2_after in E2. lia.
  - destruct P as (arr' & E2). rewrite E2 in E. apply tree2_after in E. lia.
Qed.

Lemma trees2_coin : forall m counts pos n cl pl, length counts = 128%nat -> length pos = 64%nat -> tallies counts cl -> tallies pos pl ->
  exists rs n' counts' pos', srun (some_trees m) s n = (map Some rs, n') /\ length rs = m /\
    trees2 g m 128 w counts pos (at_bit g w c n) = Ok (Some (counts', pos'), at_bit g w c n') /\ length counts' = 128%nat /\ length pos' = 64%nat /\
    tallies counts' (cl ++ map (fun r => Z.of_nat (fst r) - 1)%Z rs) /\ tallies pos' (pl ++ map (fun r => Z.of_N (snd r)) rs) /\
    (forall r, In r rs -> (1 <= fst r <= 127)%nat /\ snd r < 64).
Proof.
  induction m as [|m IH]; intros counts pos n cl pl LC LP TC TP; cbn [some_trees trees2].
  - exists [], n, counts, pos. cbn [srun map]. rewrite !app_nil_r. split; [reflexivity|]. split; [reflexivity|]. split; [reflexivity|]. repeat (split; [assumption|]). intros ? [].
  - destruct (tree2_coin n) as (k & p & n1 & S1 & KB & PB & E). rewrite srun_bind, S1, E. cbn [fst snd bind].
    assert (Q : Z.quot (Z.of_N (2 * p)) 2 = Z.of_N p) by (rewrite N2Z.inj_mul, Z.mul_comm; change (Z.of_N 2) with 2%Z; apply Z.quot_mul; discriminate). rewrite Q.
    destruct (tallies_bump pos pl (Z.of_N p) TP ltac:(lia)) as (pos1 & BP & LP' & TP'). rewrite BP. cbn [bind].
    destruct (tallies_bump counts cl (Z.of_N (N.of_nat k) - 1) TC ltac:(lia)) as (counts1 & BC & LC' & TC'). rewrite BC. cbn [bind].
    destruct (IH counts1 pos1 n1 _ _ ltac:(lia) ltac:(lia) TC' TP') as (rs & n2 & c2 & p2 & S2 & LR & E2 & A1 & A2 & A3 & A4 & A5).
    exists ((k, p) :: rs), n2, c2, p2. rewrite srun_bind, S2. cbn [srun fst snd map length]. split; [reflexivity|]. split; [rewrite LR; reflexivity|]. split; [exact E2|].
    split; [exact A1|]. split; [exact A2|]. rewrite <- app_assoc in A3, A4. cbn [app] in A3, A4. rewrite nat_N_Z in A3. split; [exact A3|]. split; [exact A4|].
    intros r [<-|IR]; [cbn; split; assumption|apply A5; exact IR].
Qed.
End Generator.
