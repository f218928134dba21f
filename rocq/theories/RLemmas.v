(** Lemmas about the generators from GNU R: integers. *)
From Verif Require Import RModel RSpec BaseLemmas LinearLemmas.
Open Scope N_scope.

(** ** Sequences given by a recurrence over a window *)
Section Window.
Variable W : nat.
Variable f : list N -> N.
Definition window_next (w : list N) : list N := tl w ++ [f w].
Definition windows (w : list N) (n : nat) : list N := Nat.iter n window_next w.
Lemma windows_succ w n : windows w (S n) = window_next (windows w n).
Proof. reflexivity. Qed.
Lemma windows_length w n : (0 < W)%nat -> length w = W -> length (windows w n) = W.
Proof.
  intros P L. induction n as [|n IH]; [exact L|]. rewrite windows_succ. unfold window_next.
  rewrite app_length. destruct (windows w n) as [|a l]; cbn [tl length] in *; lia.
Qed.
Definition seqn (w : list N) (n : nat) : N := nth 0 (windows w n) 0.
Lemma windows_seq w : (0 < W)%nat -> length w = W -> forall i n, (i < W)%nat -> nth i (windows w n) 0 = seqn w (n + i).
Proof.
  intros P L. induction i as [|i IH]; intros n H; [rewrite Nat.add_0_r; reflexivity|].
  replace (n + S i)%nat with (S n + i)%nat by lia. rewrite <- IH by lia.
  pose proof (windows_length w n P L) as Ln.
  rewrite windows_succ. unfold window_next.
  destruct (windows w n) as [|a l]; [cbn in Ln; lia|]. cbn [tl nth]. rewrite app_nth1; [reflexivity|]. cbn [length] in Ln. lia.
Qed.
Lemma seqn_rec w : (0 < W)%nat -> length w = W -> forall n, seqn w (n + W) = f (map (fun i => seqn w (n + i)) (seq 0 W)).
Proof.
  intros P L n. pose proof (windows_length w n P L) as Ln. pose proof (windows_length w (S n) P L) as Ln'.
  replace (n + W)%nat with (S n + (W - 1))%nat by lia. rewrite <- windows_seq by lia.
  rewrite windows_succ. unfold window_next.
  rewrite app_nth2; destruct (windows w n) as [|a l] eqn:E; cbn [tl length] in *; try lia.
  replace (W - 1 - length l)%nat with 0%nat by lia. cbn [nth]. f_equal. rewrite <- E.
  apply (nth_ext _ _ 0 0); [rewrite map_length, seq_length, E; exact Ln|].
  intros i Hi. rewrite E in Hi. cbn [length] in Hi.
  rewrite windows_seq by lia. set (g := fun i => seqn w (n + i)).
  rewrite (nth_indep _ 0 (g 0%nat)) by (rewrite map_length, seq_length; lia).
  rewrite map_nth, seq_nth by lia. reflexivity.
Qed.
Lemma seqn_start w i : (0 < W)%nat -> length w = W -> (i < W)%nat -> seqn w i = nth i w 0.
Proof. intros P L H. symmetry. apply (windows_seq w P L i 0 H). Qed.
End Window.

Lemma nth_map_seq {A} (g : nat -> A) n i d : (i < n)%nat -> nth i (map g (seq 0 n)) d = g i.
Proof.
  intro H. rewrite (nth_indep _ d (g 0%nat)) by (rewrite map_length, seq_length; exact H).
  rewrite map_nth, seq_nth by exact H. reflexivity.
Qed.

(** ** Mersenne twister *)
Lemma mt_mix_spec a b : a < 2 ^ 32 -> mt_mix a b = 2 ^ 31 * (a / 2 ^ 31) + b mod 2 ^ 31.
Proof.
  intro Ha. unfold mt_mix.
  assert (E1 : N.land b 0x7fffffff = b mod 2 ^ 31) by (change 0x7fffffff with (N.ones 31); apply N.land_ones).
  assert (E2 : N.land a 0x80000000 = 2 ^ 31 * (a / 2 ^ 31)).
  { rewrite <- N.shiftr_div_pow2. rewrite N.mul_comm, <- N.shiftl_mul_pow2. apply N.bits_inj. intro i.
    rewrite N.land_spec. change 0x80000000 with (2 ^ 31). rewrite N.pow2_bits_eqb, testbit_shiftl.
    destruct (N.eqb_spec 31 i) as [<-|Ne]; [rewrite andb_true_r; cbn [N.leb N.compare]; change (31 <=? 31) with true; cbn [andb]; rewrite testbit_shiftr; reflexivity|].
    rewrite andb_false_r. destruct (N.leb_spec 31 i); [|reflexivity]. cbn [andb]. rewrite testbit_shiftr.
    symmetry. apply testbit_lt32; [exact Ha|lia]. }
  rewrite E1, E2. symmetry. apply add_lor_disjoint. apply N.bits_inj. intro i.
  rewrite N.land_spec, N.bits_0. rewrite testbit_mod. rewrite N.mul_comm, <- N.shiftl_mul_pow2, testbit_shiftl.
  destruct (N.leb_spec 31 i); [|reflexivity]. destruct (N.ltb_spec i 31); [lia|]. cbn [andb]. apply andb_false_r.
Qed.
Lemma mag01_spec y : mag01 y = if N.odd y then 0x9908b0df else 0.
Proof.
  unfold mag01. rewrite <- N.bit0_odd. change (N.land y 1) with (N.land y (N.ones 1)). rewrite N.land_ones.
  change (2 ^ 1) with 2. rewrite <- N.bit0_mod. destruct (N.testbit y 0); reflexivity.
Qed.
Lemma mt_word a b c : a < 2 ^ 32 ->
  N.lxor (N.lxor c (N.shiftr (mt_mix a b) 1)) (mag01 (mt_mix a b)) = N.lxor c (twist a b).
Proof.
  intro Ha. rewrite mag01_spec, mt_mix_spec by exact Ha. unfold twist. cbv zeta. rewrite N.lxor_assoc. do 2 f_equal.
  rewrite N.shiftr_div_pow2. reflexivity.
Qed.

Section MT.
Variable x : nat -> N.
Hypothesis X : mt19937 x.
Hypothesis B : forall n, x n < 2 ^ 32.
(** [kk] words already renewed. *)
Definition mt_at (base kk : nat) (mt : list N) : Prop :=
  length mt = 624%nat /\ forall i, (i < 624)%nat -> nth i mt 0 = x (base + (if (i <? kk)%nat then 624 + i else i)).
Lemma mt_step_ok base kk mt next src : (kk < 624)%nat -> mt_at base kk mt ->
  next = Z.of_nat (if (kk <? 623)%nat then kk + 1 else 0) ->
  src = Z.of_nat (if (kk <? 227)%nat then kk + 397 else kk - 227) ->
  exists mt', mt_step mt (Z.of_nat kk) next src = Ok mt' /\ mt_at base (S kk) mt'.
Proof.
  intros K [L A] -> ->. unfold mt_step.
  assert (HN : ((if (kk <? 623)%nat then kk + 1 else 0) < 624)%nat) by (destruct (Nat.ltb_spec kk 623); lia).
  assert (HS : ((if (kk <? 227)%nat then kk + 397 else kk - 227) < 624)%nat) by (destruct (Nat.ltb_spec kk 227); lia).
  rewrite (aget_ok mt (Z.of_nat kk) 0) by lia. cbn [bind].
  rewrite (aget_ok mt (Z.of_nat (if (kk <? 623)%nat then kk + 1 else 0)) 0) by lia. cbn [bind].
  rewrite (aget_ok mt (Z.of_nat (if (kk <? 227)%nat then kk + 397 else kk - 227)) 0) by lia. cbn [bind].
  rewrite aset_ok by lia. eexists. split; [reflexivity|]. rewrite !Nat2Z.id.
  rewrite !A by assumption. replace (kk <? kk)%nat with false by lia.
  replace (base + (if ((if (kk <? 623)%nat then kk + 1 else 0) <? kk)%nat then 624 + (if (kk <? 623)%nat then kk + 1 else 0) else if (kk <? 623)%nat then kk + 1 else 0))%nat
    with (base + kk + 1)%nat.
  2: { destruct (Nat.ltb_spec kk 623).
       - replace (kk + 1 <? kk)%nat with false by lia. lia.
       - replace (0 <? kk)%nat with true by lia. lia. }
  replace (base + (if ((if (kk <? 227)%nat then kk + 397 else kk - 227) <? kk)%nat then 624 + (if (kk <? 227)%nat then kk + 397 else kk - 227) else if (kk <? 227)%nat then kk + 397 else kk - 227))%nat
    with (base + kk + 397)%nat.
  2: { destruct (Nat.ltb_spec kk 227).
       - replace (kk + 397 <? kk)%nat with false by lia. lia.
       - replace (kk - 227 <? kk)%nat with true by lia. lia. }
  rewrite mt_word by apply B. rewrite <- X. split; [rewrite set_nth_length; exact L|].
  intros i Hi. destruct (Nat.eq_dec i kk) as [->|Ne].
  - rewrite nth_set_nth_eq by lia. replace (kk <? S kk)%nat with true by lia. f_equal. lia.
  - rewrite nth_set_nth_ne by auto. rewrite A by exact Hi.
    replace (i <? S kk)%nat with (i <? kk)%nat; [reflexivity|].
    destruct (Nat.ltb_spec i kk), (Nat.ltb_spec i (S kk)); auto; lia.
Qed.
Lemma mt_loop_ok base d n : forall kk mt, (kk + n <= 623)%nat -> mt_at base kk mt ->
  (forall k, (kk <= k < kk + n)%nat -> (Z.of_nat k + d = Z.of_nat (if (k <? 227)%nat then k + 397 else k - 227))%Z) ->
  exists mt', mt_loop n (Z.of_nat kk) d mt = Ok mt' /\ mt_at base (kk + n) mt'.
Proof.
  induction n as [|n IH]; intros kk mt K A D; cbn [mt_loop].
  - exists mt. rewrite Nat.add_0_r. auto.
  - destruct (mt_step_ok base kk mt (Z.of_nat kk + 1) (Z.of_nat kk + d)) as (mt1 & -> & A1); auto; try lia.
    { destruct (Nat.ltb_spec kk 623); lia. }
    { apply D. lia. }
    cbn [bind]. replace (Z.of_nat kk + 1)%Z with (Z.of_nat (S kk)) by lia.
    destruct (IH (S kk) mt1) as (mt2 & -> & A2); auto; try lia.
    { intros k Hk. apply D. lia. }
    exists mt2. split; [reflexivity|]. replace (kk + S n)%nat with (S kk + n)%nat by lia. exact A2.
Qed.
Lemma mt_block_ok base mt : mt_at base 0 mt -> exists mt', mt_block mt = Ok mt' /\ mt_at (base + 624) 0 mt'.
Proof.
  intro A. unfold mt_block.
  destruct (mt_loop_ok base 397 227 0 mt) as (m1 & E1 & A1); auto; try lia.
  { intros k Hk. replace (k <? 227)%nat with true by lia. lia. }
  change (Z.of_nat 0) with 0%Z in E1. rewrite E1. cbn [bind].
  destruct (mt_loop_ok base (397 - 624) 396 (0 + 227) m1) as (m2 & E2 & A2); auto; try lia.
  { intros k Hk. replace (k <? 227)%nat with false by lia. lia. }
  change (Z.of_nat (0 + 227)) with 227%Z in E2. rewrite E2. cbn [bind].
  destruct (mt_step_ok base 623 m2 0 396) as (m3 & E3 & A3); auto; try lia.
  change (Z.of_nat 623) with 623%Z in E3. rewrite E3. exists m3. split; [reflexivity|].
  destruct A3 as [L A3]. split; [exact L|]. intros i Hi. rewrite A3 by exact Hi. replace (i <? 624)%nat with true by lia.
  cbn [Nat.ltb Nat.leb]. f_equal. lia.
Qed.

(** After [n] draws. *)
Definition mt_good (n : nat) (l : list N) : Prop := exists b p mt, l = N.of_nat p :: mt /\ (p <= 624)%nat /\
  (n + 624 = 624 * b + p)%nat /\ mt_at (624 * b) 0 mt.
Lemma mt_genrand_ok n l : mt_good n l -> exists l', mt_genrand l = Ok (mt_temper (x (n + 624)), l') /\ mt_good (S n) l'.
Proof.
  intros (b & p & mt & -> & P & E & A). unfold mt_genrand. rewrite (aget_ok (N.of_nat p :: mt) 0 0) by (cbn [length]; lia).
  cbn [bind Z.to_nat nth skipn]. destruct (N.ltb_spec (N.of_nat p) (2 ^ 31)) as [_|H]; [|change (2 ^ 31) with 2147483648 in H; lia]. cbn [andb].
  destruct (N.leb_spec 624 (N.of_nat p)) as [H|H].
  - assert (p = 624)%nat by lia. subst p. change (N.of_nat 624 =? 625) with false. cbv iota.
    destruct (mt_block_ok _ _ A) as (mt' & -> & A'). cbn [bind].
    destruct A' as [L A']. rewrite (aget_ok mt' 0 0) by lia. cbn [bind]. rewrite A' by lia. cbn [Z.to_nat Nat.ltb Nat.leb].
    eexists. split; [f_equal; f_equal; f_equal; f_equal; lia|].
    exists (S b), 1%nat, mt'. split; [reflexivity|]. split; [lia|]. split; [lia|]. split; [exact L|].
    intros i Hi. rewrite A' by exact Hi. f_equal. lia.
  - cbn [bind]. destruct A as [L A]. rewrite (aget_ok mt (Z.of_N (N.of_nat p)) 0) by lia. cbn [bind].
    replace (Z.to_nat (Z.of_N (N.of_nat p))) with p by lia. rewrite A by lia. cbn [Nat.ltb Nat.leb].
    eexists. split; [f_equal; f_equal; f_equal; f_equal; lia|].
    exists b, (S p), mt. split; [f_equal; lia|]. split; [lia|]. split; [lia|]. split; assumption.
Qed.
End MT.

Lemma twist_lt a b : a < 2 ^ 32 -> twist a b < 2 ^ 32.
Proof.
  intro Ha. unfold twist. cbv zeta. set (y := 2 ^ 31 * (a / 2 ^ 31) + b mod 2 ^ 31).
  assert (Hy : y < 2 ^ 32).
  { unfold y. pose proof (N.div_mod a (2 ^ 31) ltac:(discriminate)). pose proof (N.mod_lt b (2 ^ 31) ltac:(discriminate)).
    pose proof (N.mod_lt a (2 ^ 31) ltac:(discriminate)). change (2 ^ 31) with 2147483648 in *. change (2 ^ 32) with 4294967296 in *.
    generalize dependent (a mod 2147483648). generalize dependent (a / 2147483648). intros. lia. }
  apply lxor_w32_lt; [|destruct (N.odd y); reflexivity].
  apply N.div_lt_upper_bound; [discriminate|]. change (2 ^ 32) with 4294967296 in *. lia.
Qed.
Lemma twister_exists l : length l = 624%nat -> Forall (fun v => v < 2 ^ 32) l ->
  exists x, mt19937 x /\ (forall n, x n < 2 ^ 32) /\ forall i, (i < 624)%nat -> x i = nth i l 0.
Proof.
  intros L F. set (f := fun w => N.lxor (nth 397 w 0) (twist (nth 0 w 0) (nth 1 w 0))).
  exists (seqn f l). 
  assert (H : mt19937 (seqn f l)).
  { intro n. rewrite (seqn_rec 624 f l) by (auto; lia). unfold f at 1. rewrite !nth_map_seq by lia. rewrite Nat.add_0_r. reflexivity. }
  split; [exact H|]. split; [|intros i Hi; apply (seqn_start 624); auto; lia].
  assert (W : forall n i, (i <= n)%nat -> seqn f l i < 2 ^ 32).
  { induction n as [|n IH]; intros i Hi.
    - replace i with 0%nat by lia. rewrite (seqn_start 624) by (auto; lia). rewrite Forall_forall in F. apply F, nth_In. lia.
    - destruct (Nat.lt_ge_cases i 624) as [C|C].
      + rewrite (seqn_start 624) by (auto; lia). rewrite Forall_forall in F. apply F, nth_In. lia.
      + replace i with (i - 624 + 624)%nat by lia. rewrite (H (i - 624)%nat).
        apply lxor_w32_lt; [apply IH; lia|]. apply twist_lt, IH. lia. }
  intro n. apply (W n n). lia.
Qed.

Lemma expand_length n : forall s, length (expand n s) = n.
Proof. induction n as [|n IH]; intro s; [reflexivity|]. cbn [expand length]. rewrite IH. reflexivity. Qed.
Lemma scramble_lt s : scramble s < 2 ^ 32.
Proof. apply N.mod_lt. discriminate. Qed.
Lemma expand_lt n : forall s, Forall (fun v => v < 2 ^ 32) (expand n s).
Proof. induction n as [|n IH]; intro s; constructor; [apply scramble_lt|apply IH]. Qed.
Lemma expand_nth n : forall s i, (i < n)%nat -> nth i (expand n s) 0 = N.iter (N.of_nat (S i)) scramble s.
Proof.
  induction n as [|n IH]; intros s i H; [lia|]. cbn [expand]. destruct i as [|i]; [reflexivity|]. cbn [nth].
  rewrite IH by lia. rewrite (Nat2N.inj_succ (S i)). symmetry. apply N.iter_succ_r.
Qed.
(** Two successive words are not both zero. *)
Lemma expand_nonzero n s : existsb (fun v => negb (v =? 0)) (skipn 1 (expand (S (S (S n))) s)) = true.
Proof.
  cbn [expand skipn existsb]. set (a := scramble s). destruct (N.eqb_spec (scramble a) 0) as [E|E]; [|reflexivity].
  cbn [negb orb]. rewrite E. reflexivity.
Qed.
Lemma init_mt seed : rng_init [] MERSENNE_TWISTER seed = Ok (624 :: skipn 1 (expand 625 (N.iter 50 scramble seed))).
Proof.
  cbn [rng_init n_seed]. generalize (N.iter 50 scramble seed). intro s. unfold fixup_seeds.
  change 625%nat with (S (S (S 622))). rewrite expand_nonzero. reflexivity.
Qed.

(** ** Knuth's generators *)
Lemma mod_diff_Z a b : b < 2 ^ 32 -> Z.of_N (mod_diff a b) = ((Z.of_N a - Z.of_N b) mod 2 ^ 30)%Z.
Proof.
  intro Hb. unfold mod_diff. change (2 ^ 30 - 1) with (N.ones 30). rewrite N.land_ones, N2Z.inj_mod by discriminate.
  change (Z.of_N (2 ^ 30)) with (2 ^ 30)%Z. unfold sub32, u32_of_Z.
  rewrite Z2N.id by (apply Z.mod_pos_bound; reflexivity).
  rewrite <- Znumtheory.Zmod_div_mod; [reflexivity|reflexivity|reflexivity|].
  exists 4%Z. reflexivity.
Qed.
Lemma mod_diff_lt a b : mod_diff a b < 2 ^ 30.
Proof. unfold mod_diff. change (2 ^ 30 - 1) with (N.ones 30). rewrite N.land_ones. apply N.mod_lt. discriminate. Qed.

Section KT.
Variable x : nat -> N.
Hypothesis X : lagged x.
Hypothesis B : forall n, x n < 2 ^ 30.
Definition kt_at (base : nat) (l : list N) : Prop := forall i, (i < length l)%nat -> nth i l 0 = x (base + i).
Lemma lag n : mod_diff (x n) (x (n + 63)) = x (n + 100).
Proof.
  apply N2Z.inj. rewrite mod_diff_Z by (pose proof (B (n + 63)); change (2 ^ 30) with 1073741824 in *; change (2 ^ 32) with 4294967296; lia).
  symmetry. apply X.
Qed.
Lemma kt_at_snoc base l v : kt_at base l -> v = x (base + length l) -> kt_at base (l ++ [v]).
Proof.
  intros A E i Hi. rewrite app_length in Hi. cbn [length] in Hi. destruct (Nat.eq_dec i (length l)) as [->|Ne].
  - rewrite nth_middle. exact E.
  - rewrite app_nth1 by lia. apply A. lia.
Qed.
Lemma ran_grow_ok n base : forall aa, (100 <= length aa)%nat -> kt_at base aa ->
  exists aa', ran_grow n aa = Ok aa' /\ length aa' = (length aa + n)%nat /\ kt_at base aa'.
Proof.
  induction n as [|n IH]; intros aa L A; cbn [ran_grow]; [exists aa; rewrite Nat.add_0_r; auto|].
  rewrite (aget_ok aa (Z.of_nat (length aa) - 100) 0) by lia. cbn [bind].
  rewrite (aget_ok aa (Z.of_nat (length aa) - 37) 0) by lia. cbn [bind].
  rewrite !A by lia.
  destruct (IH (aa ++ [mod_diff (x (base + Z.to_nat (Z.of_nat (length aa) - 100))) (x (base + Z.to_nat (Z.of_nat (length aa) - 37)))])) as (aa' & E & L' & A').
  - rewrite app_length. lia.
  - apply kt_at_snoc; [exact A|].
    replace (base + Z.to_nat (Z.of_nat (length aa) - 37))%nat with (base + Z.to_nat (Z.of_nat (length aa) - 100) + 63)%nat by lia.
    rewrite lag. f_equal. lia.
  - exists aa'. split; [exact E|]. split; [|exact A']. rewrite app_length in L'. cbn [length] in L'. lia.
Qed.
Lemma ran_next_ok aa n base : length aa = n -> (100 <= n)%nat -> kt_at base aa -> forall m done,
  (length done + m <= 100)%nat -> kt_at (base + n) done ->
  exists r, ran_next m aa (Z.of_nat n) done = Ok r /\ length r = (length done + m)%nat /\ kt_at (base + n) r.
Proof.
  intros L Hn A. induction m as [|m IH]; intros don H D; cbn [ran_next]; [exists don; rewrite Nat.add_0_r; auto|].
  rewrite (aget_ok aa (Z.of_nat n + Z.of_nat (length don) - 100) 0) by lia. cbn [bind].
  assert (E : (if (Z.of_nat (length don) <? 37)%Z then aget aa (Z.of_nat n + Z.of_nat (length don) - 37) else aget don (Z.of_nat (length don) - 37))
    = Ok (x (base + n + length don - 37))).
  { destruct (Z.ltb_spec (Z.of_nat (length don)) 37).
    - rewrite (aget_ok aa _ 0) by lia. rewrite A by lia. do 2 f_equal. lia.
    - rewrite (aget_ok don _ 0) by lia. rewrite D by lia. do 2 f_equal. lia. }
  rewrite E. cbn [bind]. rewrite A by lia.
  replace (base + n + length don - 37)%nat with (base + Z.to_nat (Z.of_nat n + Z.of_nat (length don) - 100) + 63)%nat by lia.
  rewrite lag.
  destruct (IH (don ++ [x (base + Z.to_nat (Z.of_nat n + Z.of_nat (length don) - 100) + 100)])) as (r & E' & L' & A').
  - rewrite app_length. cbn [length]. lia.
  - apply kt_at_snoc; [exact D|]. f_equal. lia.
  - exists r. split; [exact E'|]. split; [|exact A']. rewrite app_length in L'. cbn [length] in L'. lia.
Qed.
Lemma ran_array_ok base rx n : length rx = 100%nat -> (100 <= n)%nat -> kt_at base rx ->
  exists aa rx', ran_array rx n = Ok (aa, rx') /\ length rx' = 100%nat /\ kt_at (base + n) rx'.
Proof.
  intros L Hn A. unfold ran_array. destruct (ran_grow_ok (n - 100) base rx) as (aa & -> & La & Aa); [lia|exact A|]. cbn [bind].
  destruct (ran_next_ok aa n base ltac:(lia) Hn Aa 100 []) as (r & -> & Lr & Ar); [cbn; lia|intros i Hi; cbn in Hi; lia|].
  cbn [bind]. exists aa, r. auto.
Qed.
Definition kt_good (n : nat) (l : list N) : Prop := exists b p rx, l = rx ++ [N.of_nat p] /\ length rx = 100%nat /\ (p <= 100)%nat /\
  (n + 100 = 100 * b + p)%nat /\ kt_at (1009 * b) rx.
Lemma kt_next_ok n l : kt_good n l -> exists l', kt_next l = Ok (x (1009 * (n / 100 + 1) + n mod 100), l') /\ kt_good (S n) l'.
Proof.
  intros (b & p & rx & -> & L & P & E & A). unfold kt_next.
  rewrite (aget_ok _ 100 0) by (rewrite ?app_length; cbn [length]; lia). cbn [bind].
  replace (Z.to_nat 100) with (length rx) by lia. rewrite nth_middle.
  replace (firstn 100 (rx ++ [N.of_nat p])) with rx by (rewrite firstn_app, L, Nat.sub_diag, app_nil_r, <- L, firstn_all; reflexivity).
  destruct (N.leb_spec 100 (N.of_nat p)) as [H|H].
  - destruct (ran_array_ok _ rx 1009 L ltac:(lia) A) as (aa & r & -> & Lr & Ar). cbn [bind].
    rewrite (aget_ok r (Z.of_N 0) 0) by lia. cbn [bind]. rewrite Ar by lia.
    assert (n = 100 * b)%nat by lia. subst n. rewrite (Nat.mul_comm 100 b), Nat.div_mul, Nat.mod_mul by lia.
    eexists. split; [f_equal; f_equal; f_equal; lia|]. exists (S b), 1%nat, r. split; [reflexivity|]. split; [exact Lr|].
    split; [lia|]. split; [lia|]. replace (1009 * S b)%nat with (1009 * b + 1009)%nat by lia. exact Ar.
  - cbn [bind]. rewrite (aget_ok rx (Z.of_N (N.of_nat p)) 0) by lia. cbn [bind]. rewrite A by lia.
    assert (En : n = (p + (b - 1) * 100)%nat) by lia. assert (Hb : (1 <= b)%nat) by lia.
    replace (n / 100 + 1)%nat with b by (rewrite En, Nat.div_add, Nat.div_small by lia; lia).
    replace (n mod 100)%nat with p by (rewrite En, Nat.mod_add, Nat.mod_small by lia; lia).
    eexists. split; [f_equal; f_equal; f_equal; lia|]. exists b, (S p), rx. split; [f_equal; f_equal; lia|].
    split; [exact L|]. split; [lia|]. split; [lia|exact A].
Qed.
End KT.

Lemma lagged_exists l : length l = 100%nat -> Forall (fun v => v < 2 ^ 30) l ->
  exists x, lagged x /\ (forall n, x n < 2 ^ 30) /\ forall i, (i < 100)%nat -> x i = nth i l 0.
Proof.
  intros L F. set (f := fun w => mod_diff (nth 0 w 0) (nth 63 w 0)). exists (seqn f l).
  assert (R : forall n, seqn f l (n + 100) = mod_diff (seqn f l n) (seqn f l (n + 63))).
  { intro n. rewrite (seqn_rec 100 f l) by (auto; lia). unfold f at 1. rewrite !nth_map_seq by lia. rewrite Nat.add_0_r. reflexivity. }
  assert (W : forall n, seqn f l n < 2 ^ 30).
  { intro n. destruct (Nat.lt_ge_cases n 100) as [C|C].
    - rewrite (seqn_start 100) by (auto; lia). rewrite Forall_forall in F. apply F, nth_In. lia.
    - replace n with (n - 100 + 100)%nat by lia. rewrite R. apply mod_diff_lt. }
  split; [|split; [exact W|intros i Hi; apply (seqn_start 100); auto; lia]].
  intro n. rewrite R. apply mod_diff_Z. pose proof (W (n + 63)%nat). change (2 ^ 30) with 1073741824 in *. change (2 ^ 32) with 4294967296. lia.
Qed.

(** The set-up never leaves its buffer and ends. *)
Lemma kt_bootstrap_length n : forall ss, length (kt_bootstrap n ss) = n.
Proof. induction n as [|n IH]; intro ss; [reflexivity|]. cbn [kt_bootstrap length]. rewrite IH. reflexivity. Qed.
Definition small30 (v : N) : Prop := v < 2 ^ 30.
Definition kt_buffer (x : list N) : Prop := length x = 199%nat /\ Forall small30 x.
Lemma forall_set_nth (P : N -> Prop) l v : forall i, Forall P l -> P v -> Forall P (set_nth l i v).
Proof.
  induction l as [|a l IH]; intros i F V; destruct i; inversion F; cbn [set_nth]; auto.
Qed.
Lemma forall_nth (P : N -> Prop) i l : P 0 -> Forall P l -> P (nth i l 0).
Proof.
  intros Z F. destruct (Nat.lt_ge_cases i (length l)) as [C|C].
  - rewrite Forall_forall in F. apply F, nth_In, C.
  - rewrite nth_overflow by exact C. exact Z.
Qed.
Ltac small := match goal with
  | |- small30 (mod_diff _ _) => apply mod_diff_lt
  | |- small30 0 => reflexivity
  | |- small30 (nth _ _ _) => apply forall_nth; [reflexivity|]; small
  | |- Forall small30 (set_nth _ _ _) => apply forall_set_nth; small
  | |- _ => assumption
  end.
Ltac arr := repeat first [rewrite (aget_ok _ _ 0) by (rewrite ?set_nth_length; lia); cbn [bind]
                        | rewrite aset_ok by (rewrite ?set_nth_length; lia); cbn [bind]].
Lemma kt_spread_ok j : forall x, kt_buffer x -> (j <= 99)%nat -> exists x', kt_spread j x = Ok x' /\ kt_buffer x'.
Proof.
  induction j as [|j IH]; intros x [L F] H; cbn [kt_spread]; [exists x; repeat split; auto|]. arr.
  apply IH; [split; [rewrite !set_nth_length; exact L|small]|lia].
Qed.
Lemma kt_reduce_ok n : forall x, kt_buffer x -> (n <= 99)%nat -> exists x', kt_reduce n x = Ok x' /\ kt_buffer x'.
Proof.
  induction n as [|n IH]; intros x [L F] H; cbn [kt_reduce]; [exists x; repeat split; auto|]. arr.
  apply IH; [split; [rewrite !set_nth_length; exact L|small]|lia].
Qed.
Lemma kt_shift_ok j : forall x, kt_buffer x -> (j <= 100)%nat -> exists x', kt_shift j x = Ok x' /\ kt_buffer x'.
Proof.
  induction j as [|j IH]; intros x [L F] H; cbn [kt_shift]; [exists x; repeat split; auto|]. arr.
  apply IH; [split; [rewrite !set_nth_length; exact L|small]|lia].
Qed.
Lemma kt_rounds_ok fuel : forall ss t x, kt_buffer x -> (N.to_nat (N.size ss) + t <= fuel)%nat ->
  exists x', kt_rounds fuel ss t x = Ok x' /\ kt_buffer x'.
Proof.
  induction fuel as [|fuel IH]; intros ss t x L H; cbn [kt_rounds]; destruct t as [|t']; eauto; [lia|].
  destruct (kt_spread_ok 99 x L ltac:(lia)) as (x1 & -> & L1). cbn [bind].
  destruct (kt_reduce_ok 99 x1 L1 ltac:(lia)) as (x2 & -> & L2). cbn [bind].
  assert (E : exists x3, (if N.odd ss then
          do x <- kt_shift 100 x2 ;;
          do v <- aget x 100 ;;
          do x <- aset x 0 v ;;
          do a <- aget x 37 ;;
          aset x 37 (mod_diff a v)
        else Ok x2) = Ok x3 /\ kt_buffer x3).
  { destruct (N.odd ss); [|eauto]. destruct (kt_shift_ok 100 x2 L2 ltac:(lia)) as (x3 & -> & L3 & F3). cbn [bind]. arr.
    eexists. split; [reflexivity|]. split; [rewrite !set_nth_length; exact L3|small]. }
  destruct E as (x3 & -> & L3). cbn [bind]. destruct (N.eqb_spec ss 0) as [->|Ne]; apply IH; auto.
  - cbn [N.size] in *. lia.
  - enough (N.size ss = N.size (N.shiftr ss 1) + 1) by lia.
    destruct ss as [|[p|p|]]; try contradiction; cbn; try reflexivity; lia.
Qed.
Lemma kt_warm_ok n : forall rx, length rx = 100%nat -> Forall (fun v => v < 2 ^ 30) rx -> exists rx', kt_warm n rx = Ok rx' /\ length rx' = 100%nat /\ Forall (fun v => v < 2 ^ 30) rx'.
Proof.
  induction n as [|n IH]; intros rx L F; cbn [kt_warm]; [eauto|].
  destruct (lagged_exists rx L F) as (x & X & B & S).
  destruct (ran_array_ok x X B 0 rx 199 L ltac:(lia)) as (aa & r & -> & Lr & Ar).
  { intros i Hi. symmetry. apply S. lia. }
  cbn [bind]. apply IH; [exact Lr|]. apply Forall_forall. intros v Hv. apply (In_nth _ _ 0) in Hv. destruct Hv as (i & Hi & <-).
  rewrite Ar by exact Hi. apply B.
Qed.
Lemma kt_bootstrap_small n : forall ss, N.even ss = true -> small30 ss -> Forall (fun v => small30 v /\ N.even v = true) (kt_bootstrap n ss).
Proof.
  unfold small30. induction n as [|n IH]; intros ss E H; cbn [kt_bootstrap]; constructor; [auto|].
  apply N.even_spec in E. destruct E as [q ->].
  assert (W : w32 (N.shiftl (2 * q) 1) = 4 * q).
  { rewrite N.shiftl_mul_pow2. change (2 ^ 1) with 2. unfold w32. rewrite N.mod_small; [lia|].
    change (2 ^ 30) with 1073741824 in H. change (2 ^ 32) with 4294967296. lia. }
  rewrite W. change (2 ^ 30 - 2) with 1073741822. change (2 ^ 30) with 1073741824 in *.
  destruct (N.leb_spec 1073741824 (4 * q)) as [C|C].
  - rewrite sub32_small by (try lia; change (2 ^ 32) with 4294967296; lia).
    apply IH; [apply N.even_spec; exists (2 * q - 536870911); lia|change (2 ^ 30) with 1073741824; lia].
  - apply IH; [apply N.even_spec; exists (2 * q); lia|exact C].
Qed.
Lemma size_30 s : (N.to_nat (N.size (N.land s (2 ^ 30 - 1))) <= 30)%nat.
Proof.
  change (2 ^ 30 - 1) with (N.ones 30). rewrite N.land_ones. set (v := s mod 2 ^ 30).
  assert (v < 2 ^ 30) by (apply N.mod_lt; discriminate). destruct (N.eq_dec v 0) as [E|E]; [rewrite E; cbn; lia|].
  rewrite N.size_log2 by exact E. assert (N.log2 v < 30) by (apply N.log2_lt_pow2; lia). lia.
Qed.
Lemma even_mask a : N.even (N.land a (2 ^ 30 - 2)) = true /\ small30 (N.land a (2 ^ 30 - 2)).
Proof.
  split.
  - rewrite <- N.negb_odd, <- N.bit0_odd, N.land_spec. change (N.testbit (2 ^ 30 - 2) 0) with false. rewrite andb_false_r. reflexivity.
  - unfold small30. change (2 ^ 30 - 2) with (N.land (N.ones 30) 1073741822). rewrite N.land_assoc.
    rewrite (N.land_comm a), <- N.land_assoc, N.land_comm, N.land_ones. apply N.mod_lt. discriminate.
Qed.
Lemma ran_start_ok seed : exists rx, ran_start 100 seed = Ok rx /\ length rx = 100%nat /\ Forall small30 rx.
Proof.
  unfold ran_start. destruct (even_mask (w32 (seed + 2))) as [E H].
  pose proof (kt_bootstrap_small 100 _ E H) as F. pose proof (kt_bootstrap_length 100 (N.land (w32 (seed + 2)) (2 ^ 30 - 2))) as L.
  generalize dependent (kt_bootstrap 100 (N.land (w32 (seed + 2)) (2 ^ 30 - 2))). intros l F L. clear E H.
  set (x := l ++ repeat 0 99). assert (Lx : length x = 199%nat) by (unfold x; rewrite app_length, repeat_length; lia).
  assert (Fx : Forall (fun v => small30 v /\ N.even v = true) x).
  { apply Forall_app. split; [exact F|]. apply Forall_forall. intros v Hv. apply repeat_spec in Hv. subst v. split; reflexivity. }
  clearbody x. clear F L l. arr.
  pose proof Fx as F1. rewrite Forall_forall in F1. destruct (F1 (nth (Z.to_nat 1) x 0)) as [S1 E1]; [apply nth_In; lia|].
  assert (S2 : small30 (w32 (nth (Z.to_nat 1) x 0 + 1))).
  { generalize dependent (nth (Z.to_nat 1) x 0). intros v S1 E1. apply N.even_spec in E1. destruct E1 as [q ->].
    unfold small30, w32 in *. change (2 ^ 30) with 1073741824 in *. change (2 ^ 32) with 4294967296. rewrite N.mod_small by lia. lia. }
  assert (Fs : Forall small30 x) by (eapply Forall_impl; [|exact Fx]; intros v [V _]; exact V).
  generalize dependent (w32 (nth (Z.to_nat 1) x 0 + 1)). intros w S2.
  pose proof (size_30 seed). generalize dependent (N.land seed (2 ^ 30 - 1)). intros ss Hs.
  destruct (kt_rounds_ok 100 ss 69 (set_nth x (Z.to_nat 1) w)) as (x' & -> & L' & F').
  { split; [rewrite set_nth_length; exact Lx|small]. }
  { lia. }
  cbn [bind]. clear - L' F'.
  assert (L1 : length (firstn 63 (skipn 37 x')) = 63%nat) by (rewrite firstn_length, skipn_length; lia).
  assert (L2 : length (firstn 37 x') = 37%nat) by (rewrite firstn_length; lia).
  apply kt_warm_ok; [rewrite app_length; lia|]. apply Forall_app. rewrite Forall_forall in F'. split; apply Forall_forall; intros v Hv; apply F'.
  - rewrite <- (firstn_skipn 37 x'). apply in_or_app. right. rewrite <- (firstn_skipn 63 (skipn 37 x')). apply in_or_app. left. exact Hv.
  - rewrite <- (firstn_skipn 37 x'). apply in_or_app. left. exact Hv.
Qed.
