From Coq Require Import List NArith ZArith Reals Lia Lra.
From Verif Require Import BaseLemmas TallyLemmas OpermReal RunsArcs ChisqLemmas PropChisq PropChisq3 TreeLawSpec CoinLaw CoinNumbers TreeCoin.
Import ListNotations.
Open Scope R_scope.

(** ** Chances of one tree *)
Lemma chance_ends n p : (1 <= n <= 127)%nat -> tree_chance 762 1 [Some (n, p)] = ends (n - 1) 7 (Marked Blank Blank) p.
Proof.
  intro H. rewrite chance_one by lia. unfold one_tree. rewrite <- (fill_ends (n - 1) 127 7 (Marked Blank Blank) 0 p) by lia. apply Ex_ext. intro a. do 3 f_equal. lia.
Qed.
Lemma law2_stays i : (i < 127)%nat -> law2 i = stays i 7 (Marked Blank Blank) - stays (S i) 7 (Marked Blank Blank).
Proof.
  intro H. unfold law2. rewrite <- (ends_sum i 6 (Marked Blank Blank) 64 eq_refl). apply rsum_ext. intros p _. rewrite chance_ends by lia. f_equal. lia.
Qed.
Lemma law2_Ex i : law2 i = Ex one_tree (fun r => rsum 64 (fun p => is_result r (Some (S i, N.of_nat p)))).
Proof.
  unfold law2. rewrite (Ex_rsum one_tree 64 (fun p r => is_result r (Some (S i, N.of_nat p)))). apply rsum_ext. intros p _. apply chance_one. lia.
Qed.
Lemma Ex_pos {A} (c : coin A) f : (forall a, 0 <= f a) -> 0 <= Ex c f.
Proof. intro H. induction c as [a|k IH]; cbn [Ex]; [apply H|]. pose proof (IH false). pose proof (IH true). lra. Qed.
Lemma rsum_pos n f : (forall k, (k < n)%nat -> 0 <= f k) -> 0 <= rsum n f.
Proof. intro H. induction n as [|n IH]; cbn [rsum]; [lra|]. pose proof (H n ltac:(lia)). assert (0 <= rsum n f) by (apply IH; intros; apply H; lia). lra. Qed.
Lemma law2_pos i : 0 <= law2 i.
Proof. rewrite law2_Ex. apply Ex_pos. intro a. apply rsum_pos. intros p _. unfold is_result. destruct (result_eq_dec _ _); lra. Qed.

Lemma entry_pow table i : (0 <= snd (nth i table (0, 0)))%Z -> entry table i = IZR (fst (nth i table (0, 0)%Z)) / 10 ^ Z.to_nat (snd (nth i table (0, 0)%Z)).
Proof. intro H. unfold entry. rewrite <- (Z2Nat.id (snd (nth i table (0, 0)%Z))) at 1 by exact H. rewrite <- pow_IZR. reflexivity. Qed.
Lemma target2_exp i : (0 <= snd (nth i target2 (0, 0)))%Z.
Proof.
  destruct (Nat.ltb_spec i 128) as [L|L]; [|rewrite nth_overflow by exact L; apply Z.le_refl].
  assert (F : forallb (fun x => (0 <=? snd x)%Z) target2 = true) by (vm_compute; reflexivity). rewrite forallb_forall in F. apply Z.leb_le, F, nth_In. exact L.
Qed.
Lemma table2_entry i : (i < 127)%nat -> Rabs (entry target2 i - law2 i) <= 4 / 10 ^ 15 * law2 i.
Proof. intro H. rewrite entry_pow by apply target2_exp. rewrite law2_stays by exact H. apply (table2_law i). lia. Qed.

(** ** Counting many trees *)
Local Opaque one_tree.
Lemma Ex_cons m F : Ex (some_trees (S m)) F = Ex one_tree (fun r => Ex (some_trees m) (fun rs => F (r :: rs))).
Proof. cbn [some_trees]. rewrite Ex_bind. apply Ex_ext. intro r. rewrite Ex_bind. reflexivity. Qed.
Definition nsum (f : option (nat * N) -> R) (l : list (option (nat * N))) : R := lsumR l f.
Lemma Ex_nsum f : forall m, Ex (some_trees m) (nsum f) = INR m * Ex one_tree f.
Proof.
  induction m as [|m IH]; [cbn [some_trees Ex]; unfold nsum; cbn [lsumR INR pow]; ring|]. rewrite Ex_cons. rewrite (Ex_ext one_tree _ (fun r => f r + INR m * Ex one_tree f)).
  - rewrite Ex_plus, Ex_const, S_INR. ring.
  - intro r. unfold nsum. cbn [lsumR]. rewrite Ex_plus, Ex_const, <- IH. reflexivity.
Qed.
Lemma Ex_nsum2 f : (forall r, f r * f r = f r) -> forall m, Ex (some_trees m) (fun l => nsum f l ^ 2) = INR m * Ex one_tree f + INR m * (INR m - 1) * Ex one_tree f ^ 2.
Proof.
  intro I. induction m as [|m IH]; [cbn [some_trees Ex]; unfold nsum; cbn [lsumR INR pow]; ring|]. rewrite Ex_cons.
  rewrite (Ex_ext one_tree _ (fun r => f r + (2 * (INR m * Ex one_tree f)) * f r + (INR m * Ex one_tree f + INR m * (INR m - 1) * Ex one_tree f ^ 2))).
  - rewrite !Ex_plus, Ex_scale, !Ex_const, S_INR. change (Ex one_tree (fun a => f a)) with (Ex one_tree f). ring.
  - intro r. rewrite <- IH, <- Ex_nsum.
    rewrite (Ex_ext (some_trees m) _ (fun l => f r + (2 * f r) * nsum f l + nsum f l ^ 2)).
    + rewrite !Ex_plus, Ex_scale, Ex_const. change (Ex (some_trees m) (fun a => nsum f a)) with (Ex (some_trees m) (nsum f)). ring.
    + intro l. unfold nsum. cbn [lsumR]. transitivity (f r * f r + 2 * f r * lsumR l f + lsumR l f ^ 2); [ring|]. rewrite I. reflexivity.
Qed.
Lemma Ex_square f m x : (forall r, f r * f r = f r) ->
  Ex (some_trees m) (fun l => (nsum f l - INR m * x) ^ 2) = INR m * (Ex one_tree f * (1 - Ex one_tree f)) + INR m ^ 2 * (Ex one_tree f - x) ^ 2.
Proof.
  intro I. rewrite (Ex_ext _ _ (fun l => nsum f l ^ 2 + ((-2 * (INR m * x)) * nsum f l + (INR m * x) ^ 2))) by (intro; ring).
  rewrite !Ex_plus, Ex_scale, Ex_const, Ex_nsum, Ex_nsum2 by exact I. ring.
Qed.

(** the indicator of a result with count i+1 and a slot below 64 *)
Definition bin_ind (i : nat) (r : option (nat * N)) : R := rsum 64 (fun p => is_result r (Some (S i, N.of_nat p))).
Lemma bin_ind_val i r : bin_ind i r = match r with Some (k, p) => if ((k =? S i)%nat && (p <? 64)%N)%bool then 1 else 0 | None => 0 end.
Proof.
  unfold bin_ind. destruct r as [[k p]|].
  - destruct (Nat.eqb_spec k (S i)) as [->|N]; cbn [andb].
    + destruct (N.ltb_spec p 64) as [L|L].
      * rewrite (rsum_single 64 _ (N.to_nat p)); [|lia|].
        -- unfold is_result. destruct (result_eq_dec _ _) as [E|E]; [reflexivity|]. exfalso. apply E. rewrite N2Nat.id. reflexivity.
        -- intros j J NE. unfold is_result. destruct (result_eq_dec _ _) as [E|E]; [|reflexivity]. injection E as E. exfalso. lia.
      * rewrite (rsum_ext _ _ (fun _ => 0)); [apply rsum_zero|]. intros j J. unfold is_result. destruct (result_eq_dec _ _) as [E|E]; [|reflexivity]. injection E as E. exfalso. lia.
    + rewrite (rsum_ext _ _ (fun _ => 0)); [apply rsum_zero|]. intros j J. unfold is_result. destruct (result_eq_dec _ _) as [E|E]; [|reflexivity]. injection E as E _. exfalso. lia.
  - rewrite (rsum_ext _ _ (fun _ => 0)); [apply rsum_zero|]. intros j J. unfold is_result. destruct (result_eq_dec _ _) as [E|E]; [discriminate|reflexivity].
Qed.
Lemma bin_ind_idem i r : bin_ind i r * bin_ind i r = bin_ind i r.
Proof. rewrite bin_ind_val. destruct r as [[k p]|]; [destruct (_ && _)%bool|]; ring. Qed.

(** ** The program on a string of bits *)
Lemma at_bit_0 g w c : (1 <= w)%N -> (g c, w, S c) = TreeLemmas2.at_bit g w c 0.
Proof. intro V. unfold TreeLemmas2.at_bit. change (N.of_nat 0) with 0%N. rewrite N.mod_0_l, N.shiftr_0_r, N.sub_0_r by lia. rewrite Nat.div_0_l by lia. rewrite Nat.add_0_r. reflexivity. Qed.
Lemma program_coin g w m c bs : (1 <= w)%N -> (w <= 32)%N -> (762 * m <= length bs)%nat ->
  (forall n, (n < length bs)%nat -> nth n bs false = lsb_stream (fun k => g (c + k)%nat) w n) ->
  exists rs counts pos s, trees_of m bs = Some (map Some rs) /\ length rs = m /\ (forall r, In r rs -> (1 <= fst r <= 127)%nat /\ (snd r < 64)%N) /\
    filltree2 g 128 w m c = Ok (Some (counts, pos), s) /\ length counts = 128%nat /\ length pos = 64%nat /\
    tallies counts (map (fun r => Z.of_nat (fst r) - 1)%Z rs) /\ tallies pos (map (fun r => Z.of_N (snd r)) rs).
Proof.
  intros W1 W2 L E. unfold filltree2. rewrite at_bit_0 by exact W1.
  destruct (trees2_coin g w c W1 W2 m (repeat 0%N 128) (repeat 0%N 64) 0 [] [] eq_refl eq_refl (tallies_nil 128) (tallies_nil 64)) as (rs & n' & counts & pos & S1 & LR & E2 & A1 & A2 & A3 & A4 & A5).
  exists rs, counts, pos, (TreeLemmas2.at_bit g w c n'). change (N.to_nat (128 / 2)) with 64%nat. rewrite E2.
  split; [|split; [exact LR|split; [exact A5|split; [reflexivity|split; [exact A1|split; [exact A2|split; [exact A3|exact A4]]]]]]].
  destruct (run_srun (some_trees m) (lsb_stream (fun k => g (c + k)%nat) w) (762 * m) bs 0 (within_trees m) L E) as (rest & R). unfold trees_of. rewrite R, S1. reflexivity.
Qed.
Lemma bits_generator (bs : list bool) n : nth n bs false = lsb_stream (fun k => N.b2n (nth (0 + k) bs false)) 1 n.
Proof. unfold lsb_stream. change (N.to_nat 1) with 1%nat. rewrite Nat.div_1_r, N.mod_1_r. cbn [Nat.add]. destruct (nth n bs false); reflexivity. Qed.
Lemma trees_of_some m bs : (762 * m <= length bs)%nat -> exists rs, trees_of m bs = Some (map Some rs) /\ length rs = m /\ (forall r, In r rs -> (1 <= fst r <= 127)%nat /\ (snd r < 64)%N).
Proof.
  intro L. destruct (program_coin (fun k => N.b2n (nth k bs false)) 1 m 0 bs ltac:(lia) ltac:(lia) L (fun n _ => bits_generator bs n)) as (rs & _ & _ & _ & A & B & C & _). eauto.
Qed.
Lemma results_of_map rs : results_of (Some (map Some rs)) = rs.
Proof. unfold results_of. rewrite map_map. induction rs as [|r rs IH]; [reflexivity|]. cbn. rewrite IH. reflexivity. Qed.
Lemma nsum_took i rs : (forall r, In r rs -> (snd r < 64)%N) -> nsum (bin_ind i) (map Some rs) = how_many (took i) rs.
Proof.
  unfold nsum, how_many. induction rs as [|[k p] rs IH]; intro H; [reflexivity|]. cbn [map lsumR countp]. rewrite IH by (intros; apply H; right; assumption).
  rewrite bin_ind_val, N2Z.inj_add, plus_IZR. pose proof (H (k, p) (or_introl eq_refl)) as B. cbn [snd] in B. rewrite (proj2 (N.ltb_lt p 64) B), Bool.andb_true_r.
  unfold took at 2. cbn [fst]. destruct (k =? S i)%nat; reflexivity.
Qed.
Lemma strings_len : forall n bs, In bs (strings n) -> length bs = n.
Proof.
  induction n as [|n IH]; intros bs H; cbn [strings] in H; [destruct H as [<-|[]]; reflexivity|]. apply in_app_or in H. destruct H as [H|H]; apply in_map_iff in H; destruct H as (x & <- & H); cbn; rewrite (IH x H); reflexivity.
Qed.
Lemma chisq_mean L m a b : (762 * m <= L)%nat -> (1 <= m)%nat -> (forall i, (a <= i < b)%nat -> entry target2 i <> 0) ->
  average (strings L) (fun bs => bins_chisq target2 (INR m) a b (results_of (trees_of m bs))) =
  rsum (b - a) (fun j => let i := (a + j)%nat in (law2 i * (1 - law2 i) + INR m * (entry target2 i - law2 i) ^ 2) / entry target2 i).
Proof.
  intros HL M NZ. set (F := fun o : option (list (option (nat * N))) => match o with Some l => rsum (b - a) (fun j => (nsum (bin_ind (a + j)) l - INR m * entry target2 (a + j)) ^ 2 / (INR m * entry target2 (a + j))) | None => 0 end).
  rewrite (average_ext (strings L) _ (fun bs => F (option_map fst (run (some_trees m) bs)))).
  2: { intros bs H. apply strings_len in H. destruct (trees_of_some m bs ltac:(lia)) as (rs & E & _ & B). fold (trees_of m bs). rewrite E, results_of_map. unfold F, bins_chisq. apply rsum_ext. intros j _. rewrite nsum_took; [reflexivity|]. intros r I. apply B. exact I. }
  rewrite (run_average (some_trees m) F) by (apply (within_le _ (762 * m)); [exact HL|apply within_trees]). unfold F.
  rewrite (Ex_rsum (some_trees m) (b - a) (fun j l => (nsum (bin_ind (a + j)) l - INR m * entry target2 (a + j)) ^ 2 / (INR m * entry target2 (a + j)))). apply rsum_ext. intros j J.
  unfold Rdiv at 1. rewrite Ex_scale_r, Ex_square by apply bin_ind_idem. change (Ex one_tree (bin_ind (a + j))) with (Ex one_tree (fun r => rsum 64 (fun p => is_result r (Some (S (a + j), N.of_nat p))))). rewrite <- law2_Ex.
  assert (INR m <> 0) by (apply not_0_INR; lia). pose proof (NZ (a + j)%nat ltac:(lia)). cbv zeta. field. split; assumption.
Qed.
Lemma law2_total : rsum 127 law2 = 1.
Proof.
  transitivity (Ex (some_trees 1) (nsum (fun r => rsum 127 (fun i => bin_ind i r)))).
  - rewrite Ex_nsum. cbn [INR]. rewrite Rmult_1_l, (Ex_rsum one_tree 127 bin_ind). apply rsum_ext. intros i _. rewrite law2_Ex. reflexivity.
  - set (F := fun o : option (list (option (nat * N))) => match o with Some l => nsum (fun r => rsum 127 (fun i => bin_ind i r)) l | None => 0 end).
    change (Ex (some_trees 1) (fun l => F (Some l)) = 1). rewrite <- (run_average (some_trees 1) F (762 * 1) (within_trees 1)).
    rewrite (average_ext (strings (762 * 1)) _ (fun _ => 1)); [apply average_strings_const|]. intros bs H. apply strings_len in H.
    destruct (trees_of_some 1 bs ltac:(lia)) as (rs & E & L & B). fold (trees_of 1 bs). rewrite E. unfold F. destruct rs as [|[k p] [|? ?]]; try discriminate L. destruct (B (k, p) (or_introl eq_refl)) as [B1 B2]. cbn [fst snd] in B1, B2.
    unfold nsum. cbn [map lsumR]. rewrite (rsum_single 127 _ (k - 1)%nat); [|lia|].
    + rewrite bin_ind_val. replace (S (k - 1)) with k by lia. rewrite Nat.eqb_refl, (proj2 (N.ltb_lt p 64) B2). cbn [andb]. ring.
    + intros j J N. rewrite bin_ind_val. rewrite (proj2 (Nat.eqb_neq k (S j))) by lia. reflexivity.
Qed.
