From Verif Require Import BaseLemmas TallyLemmas GcdModel GcdSpec.
Open Scope N_scope.

Lemma mod_half : forall u v, v <> 0 -> v <= u -> 2 * (u mod v) < u.
Proof.
  intros u v H L. pose proof (N.mod_lt u v H). pose proof (N.div_mod u v H) as D.
  assert (1 <= u / v) by (apply N.div_le_lower_bound; lia). nia.
Qed.

Lemma euclid_gen : forall n fuel u v k, v <> 0 -> v < 2 ^ N.of_nat n -> (2 * n + 1 <= fuel)%nat ->
  exists d, divisions u v d /\ d <= 2 * N.of_nat n /\ euclid fuel u v k = Ok (N.gcd u v, k + d).
Proof.
  induction n as [|n IH]; intros fuel u v k Hv B F.
  - change (2 ^ N.of_nat 0) with 1 in B. lia.
  - replace (2 ^ N.of_nat (S n)) with (2 * 2 ^ N.of_nat n) in B by (rewrite Nat2N.inj_succ, N.pow_succ_r'; reflexivity).
    destruct fuel as [|fuel]; [lia|]. cbn [euclid].
    replace (v =? 0) with false by lia.
    assert (G : N.gcd u v = N.gcd v (u mod v)) by (rewrite N.gcd_comm; symmetry; rewrite N.gcd_comm; apply N.gcd_mod; exact Hv).
    destruct (N.ltb_spec 0 (u mod v)) as [P|P].
    + destruct fuel as [|fuel]; [lia|]. cbn [euclid].
      assert (Hw : u mod v <> 0) by lia. replace (u mod v =? 0) with false by lia.
      assert (Lw : u mod v < v) by (apply N.mod_lt; exact Hv).
      destruct (N.ltb_spec 0 (v mod (u mod v))) as [Q|Q].
      * pose proof (mod_half v (u mod v) Hw ltac:(lia)) as M.
        destruct (IH fuel (u mod v) (v mod (u mod v)) (k + 1 + 1)) as (d & D & Bd & E); [lia|lia|lia|].
        exists (d + 1 + 1). split.
        -- apply remainder_left; [exact Hv|exact Hw|]. apply remainder_left; [exact Hw|lia|exact D].
        -- split; [lia|]. rewrite E. f_equal. f_equal; [|lia].
           rewrite G. rewrite (N.gcd_comm v), <- (N.gcd_mod v (u mod v)) by exact Hw. apply N.gcd_comm.
      * exists (1 + 1). split.
        -- apply remainder_left; [exact Hv|exact Hw|]. apply exact_division; [exact Hw|lia].
        -- split; [lia|]. f_equal. f_equal; [|lia]. rewrite G.
           rewrite (N.gcd_comm v), <- (N.gcd_mod v (u mod v)) by exact Hw.
           replace (v mod (u mod v)) with 0 by lia. rewrite N.gcd_0_l. reflexivity.
    + exists 1. split; [apply exact_division; [exact Hv|lia]|]. split; [lia|].
      f_equal. f_equal. rewrite G. replace (u mod v) with 0 by lia. rewrite N.gcd_0_r. reflexivity.
Qed.

Lemma euclid_ok : forall u v, v <> 0 -> v < 2 ^ 32 ->
  exists d, divisions u v d /\ 1 <= d <= 64 /\ euclid 65 u v 0 = Ok (N.gcd u v, d).
Proof.
  intros u v H B. destruct (euclid_gen 32 65 u v 0 H) as (d & D & L & E); [exact B|lia|].
  exists d. split; [exact D|]. split; [|rewrite E; f_equal; f_equal; lia].
  split; [destruct D; lia|exact L].
Qed.

Lemma divisions_unique : forall u v k k', divisions u v k -> divisions u v k' -> k = k'.
Proof.
  intros u v k k' D. revert k'. induction D as [u v H E|u v k H E D IH]; intros k' D'; inversion D'; subst; try congruence.
  f_equal. apply IH. assumption.
Qed.

Lemma nonzero_ok : forall g fuel c x c', next_nonzero g c x c' -> (c' - c <= fuel)%nat -> nonzero g fuel c = Ok (x, c').
Proof.
  intros g fuel c x c' (skip & -> & Z & E & N) F. revert c fuel Z E F.
  induction skip as [|s IH]; intros c fuel Z E F.
  - destruct fuel; [lia|]. cbn [nonzero]. rewrite Nat.add_0_r in E. rewrite E.
    replace (x =? 0) with false by lia. f_equal. f_equal. lia.
  - destruct fuel; [lia|]. cbn [nonzero]. pose proof (Z 0%nat ltac:(lia)) as Z0. rewrite Nat.add_0_r in Z0.
    rewrite Z0. change (0 =? 0) with true. cbn iota.
    rewrite (IH (S c) fuel).
    + f_equal. f_equal. lia.
    + intros i Hi. replace (S c + i)%nat with (c + S i)%nat by lia. apply Z. lia.
    + replace (S c + s)%nat with (c + S s)%nat by lia. exact E.
    + lia.
Qed.

Definition gcd_cell (n : N) (p : N * N) : Z := Z.of_N (N.min (N.gcd (fst p) (snd p)) (n - 1)).

Lemma gcd_pos : forall u v, v <> 0 -> 0 < N.gcd u v /\ N.gcd u v <= v.
Proof.
  intros u v H. assert (N.gcd u v <> 0) by (intro E; apply N.gcd_eq_0_r in E; contradiction).
  split; [lia|]. apply N.divide_pos_le; [lia|]. apply N.gcd_divide_r.
Qed.

Lemma sample_ok : forall g fuel n gcd ktbl c u c1 v c2 dg dk,
  0 < n -> n < 2 ^ 32 -> next_nonzero g c u c1 -> next_nonzero g c1 v c2 -> (c2 - c <= fuel)%nat ->
  v < 2 ^ 32 ->
  (N.to_nat n <= length gcd)%nat -> tallies gcd dg -> length ktbl = 41%nat -> tallies ktbl dk ->
  exists gcd' ktbl' d, gcd_sample g fuel n (gcd, ktbl, c) = Ok (gcd', ktbl', c2) /\
    divisions u v d /\ length gcd' = length gcd /\ length ktbl' = 41%nat /\
    tallies gcd' (dg ++ [gcd_cell n (u, v)]) /\ tallies ktbl' (dk ++ [Z.of_N (N.min d 40)]).
Proof.
  intros g fuel n gcd ktbl c u c1 v c2 dg dk Hn Bn Hu Hv F Bv Lg Tg Lk Tk.
  assert (c1 > c /\ c2 > c1)%nat as [O1 O2].
  { destruct Hu as (s & -> & _). destruct Hv as (s' & -> & _). lia. }
  assert (Nv : v <> 0) by (destruct Hv as (s & _ & _ & _ & N); exact N).
  unfold gcd_sample. rewrite (nonzero_ok g fuel c u c1 Hu) by lia. cbn [bind].
  rewrite (nonzero_ok g fuel c1 v c2 Hv) by lia. cbn [bind].
  destruct (euclid_ok u v Nv Bv) as (d & D & Bd & E). rewrite E. cbn [bind].
  destruct (gcd_pos u v Nv) as [P1 P2].
  assert (Ec : (if n <=? N.gcd u v then sub32 n 1 else N.gcd u v) = N.min (N.gcd u v) (n - 1)).
  { destruct (N.leb_spec n (N.gcd u v)); [rewrite sub32_small by lia|]; lia. }
  rewrite Ec. replace (N.min (N.gcd u v) (n - 1) <? n) with true by lia.
  destruct (tallies_bump gcd dg (Z.of_N (N.min (N.gcd u v) (n - 1))) Tg) as (gcd' & Eg & Lg' & Tg'); [lia|].
  rewrite Eg. cbn [bind].
  assert (Ek : (if 40 <? d then 40 else d) = N.min d 40) by (destruct (N.ltb_spec 40 d); lia). rewrite Ek.
  destruct (tallies_bump ktbl dk (Z.of_N (N.min d 40)) Tk) as (k' & Ekk & Lk' & Tk'); [lia|].
  rewrite Ekk. cbn [bind]. exists gcd', k', d. split; [reflexivity|]. split; [exact D|].
  split; [exact Lg'|]. split; [lia|]. split; assumption.
Qed.

Lemma samples_ok : forall g fuel n ps c c', 0 < n -> n < 2 ^ 32 -> (forall i, g i < 2 ^ 32) -> pairs g c ps c' -> (c' - c <= fuel)%nat ->
  forall gcd ktbl dg dk, (N.to_nat n <= length gcd)%nat -> tallies gcd dg -> length ktbl = 41%nat -> tallies ktbl dk ->
  exists gcd' ktbl' ds, iter_o (length ps) (gcd_sample g fuel n) (gcd, ktbl, c) = Ok (gcd', ktbl', c') /\
    length gcd' = length gcd /\ length ktbl' = 41%nat /\
    Forall2 (fun p d => divisions (fst p) (snd p) d) ps ds /\
    tallies gcd' (dg ++ map (gcd_cell n) ps) /\ tallies ktbl' (dk ++ map (fun d => Z.of_N (N.min d 40)) ds).
Proof.
  intros g fuel n ps c c' Hn Bn Bg P. induction P as [c|c u c1 v c2 rest c' Hu Hv P IH]; intros F gcd ktbl dg dk Lg Tg Lk Tk.
  - exists gcd, ktbl, []. cbn [length iter_o map]. rewrite !app_nil_r.
    split; [reflexivity|]. split; [reflexivity|]. split; [exact Lk|]. split; [constructor|]. split; assumption.
  - assert (c1 > c /\ c2 > c1)%nat as [O1 O2].
    { destruct Hu as (s & -> & _). destruct Hv as (s' & -> & _). lia. }
    assert (c' >= c2)%nat.
    { clear - P. induction P as [|? ? ? ? ? ? ? (s & -> & _) (s' & -> & _) P IH]; lia. }
    assert (Bv : v < 2 ^ 32) by (destruct Hv as (s & _ & _ & <- & _); apply Bg).
    destruct (sample_ok g fuel n gcd ktbl c u c1 v c2 dg dk Hn Bn Hu Hv ltac:(lia) Bv Lg Tg Lk Tk)
      as (g1 & k1 & d & E & D & L1 & Lk1 & T1 & Tk1).
    destruct (IH ltac:(lia) g1 k1 _ _ ltac:(lia) T1 Lk1 Tk1) as (g2 & k2 & ds & E2 & L2 & Lk2 & F2 & T2 & Tk2).
    exists g2, k2, (d :: ds). cbn [length iter_o]. rewrite E. cbn [bind]. split; [exact E2|].
    split; [congruence|]. split; [exact Lk2|]. split; [constructor; [exact D|exact F2]|].
    cbn [map]. rewrite <- !app_assoc in T2, Tk2. split; assumption.
Qed.
