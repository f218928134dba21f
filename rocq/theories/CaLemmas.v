(** Lemmas about the cellular automaton generator. *)
From Verif Require Import CaModel BaseLemmas GensSpec GensLemmas.
Open Scope N_scope.

(** ** The rule *)
Definition R (x : N) : N := nth (N.to_nat x) ca_rule 0.

Fixpoint remove_one (x : N) (l : list N) : list N :=
  match l with [] => [] | y :: t => if x =? y then t else y :: remove_one x t end.

Lemma rule_bytes : Forall (fun v => v < 256) ca_rule.
Proof.
  apply Forall_forall. intros x Hx.
  assert (E : forallb (fun v => v <? 256) ca_rule = true) by (vm_compute; reflexivity).
  rewrite forallb_forall in E. apply N.ltb_lt, E, Hx.
Qed.
Lemma rule_nodup : NoDup (firstn 256 ca_rule).
Proof.
  assert (D : forall l, (fix nd l := match l with [] => true | x :: t => negb (existsb (N.eqb x) t) && nd t end) l = true -> NoDup l).
  { induction l as [|x l IH]; intro H; constructor.
    - intro Hin. apply andb_prop in H. destruct H as [H _]. apply negb_true_iff in H.
      assert (E : existsb (N.eqb x) l = true) by (apply existsb_exists; exists x; split; [exact Hin|apply N.eqb_refl]).
      rewrite E in H. discriminate.
    - apply andb_prop in H. apply IH, H. }
  apply D. vm_compute. reflexivity.
Qed.
Lemma rule_split : ca_rule = firstn 256 ca_rule ++ firstn 255 ca_rule.
Proof. vm_compute. reflexivity. Qed.
Lemma R_period x : x < 511 -> R x = nth (N.to_nat (x mod 256)) (firstn 256 ca_rule) 0.
Proof.
  intro H. unfold R. rewrite rule_split at 1.
  assert (L : length (firstn 256 ca_rule) = 256%nat) by reflexivity.
  assert (F : firstn 255 ca_rule = firstn 255 (firstn 256 ca_rule)) by reflexivity.
  rewrite F. revert L. generalize (firstn 256 ca_rule). clear F. intros l L.
  destruct (N.lt_ge_cases x 256) as [C|C].
  - rewrite app_nth1 by lia. rewrite N.mod_small by exact C. reflexivity.
  - rewrite app_nth2 by lia. rewrite L.
    replace (x mod 256) with (x - 256) by (apply (N.mod_unique _ _ 1); lia).
    replace (N.to_nat (x - 256)) with (N.to_nat x - 256)%nat by lia.
    set (k := (N.to_nat x - 256)%nat). assert (Hk : (k < 255)%nat) by lia. clearbody k.
    rewrite <- (firstn_skipn 255 l) at 2. rewrite app_nth1 by (rewrite firstn_length; lia). reflexivity.
Qed.
Lemma R_inj l x y : l < 256 -> x < 256 -> y < 256 -> R (l + x) = R (l + y) -> x = y.
Proof.
  intros Hl Hx Hy E. rewrite !R_period in E by lia.
  assert (L : length (firstn 256 ca_rule) = 256%nat) by reflexivity.
  pose proof rule_nodup as D. rewrite (NoDup_nth _ 0) in D.
  pose proof (N.mod_lt (l + x) 256 ltac:(discriminate)). pose proof (N.mod_lt (l + y) 256 ltac:(discriminate)).
  apply D in E; [|rewrite L; lia..].
  apply N2Nat.inj in E.
  pose proof (N.div_mod (l + x) 256 ltac:(discriminate)). pose proof (N.div_mod (l + y) 256 ltac:(discriminate)).
  rewrite E in *. clear - H H0 H1 H2 Hl Hx Hy.
  assert (256 * ((l + x) / 256) + y = 256 * ((l + y) / 256) + x) by lia.
  generalize dependent ((l + x) / 256). generalize dependent ((l + y) / 256). intros. lia.
Qed.
Lemma R_byte x : x < 511 -> R x < 256.
Proof.
  intro H. unfold R. pose proof rule_bytes as B. rewrite Forall_forall in B. apply B, nth_In.
  change (length ca_rule) with 511%nat. lia.
Qed.

(** ** One step *)
Lemma to_nat_of_N x : Z.to_nat (Z.of_N x) = N.to_nat x.
Proof. lia. Qed.
Notation bytes := (Forall (fun b => b < 256)).
Lemma bytes_nth l i : bytes l -> nth i l 0 < 256.
Proof.
  intro B. destruct (Nat.lt_ge_cases i (length l)) as [C|C].
  - rewrite Forall_forall in B. apply B, nth_In, C.
  - rewrite nth_overflow by exact C. reflexivity.
Qed.
Lemma bytes_set l i v : bytes l -> v < 256 -> bytes (set_nth l i v).
Proof.
  intros B Hv. revert i. induction B as [|x l Hx B IH]; intros [|i]; cbn [set_nth]; constructor; auto.
Qed.
Lemma ca_cell_ok l p q : bytes l -> (0 <= p < Z.of_nat (length l))%Z -> (0 <= q < Z.of_nat (length l))%Z ->
  ca_cell l p q = Ok (set_nth l (Z.to_nat p) (R (nth (Z.to_nat q) l 0 + nth (Z.to_nat p) l 0))).
Proof.
  intros B Hp Hq. unfold ca_cell. pose proof (bytes_nth l (Z.to_nat p) B). pose proof (bytes_nth l (Z.to_nat q) B).
  rewrite (aget_ok l p 0) by lia. cbn [bind]. rewrite (aget_ok l q 0) by lia. cbn [bind].
  rewrite (aget_ok ca_rule _ 0) by (change (length ca_rule) with 511%nat; lia). cbn [bind].
  rewrite aset_ok by lia. f_equal. f_equal. rewrite to_nat_of_N. apply N.mod_small. apply (R_byte _). lia.
Qed.

(** The cell to the left, 0 beyond the border. *)
Definition left (l : list N) (j : nat) : N := match j with O => 0 | S i => nth i l 0 end.
Record cagood (s : castate) (k : nat) : Prop := {
  cg_len : length (cells s) = 2056%nat;
  cg_bytes : bytes (cells s);
  cg_k : (k < 514)%nat;
  cg_cur : cur s = (4 * Z.of_nat k + 3)%Z }.
Definition before (k : nat) : nat := match k with O => 513%nat | S i => i end.

Lemma left_lt l j : bytes l -> left l j < 256.
Proof. intro B. destruct j; [reflexivity|apply bytes_nth, B]. Qed.

Lemma ca_get_ok s k : cagood s k -> exists l,
  ca_get s = Ok (nth (4 * k) l 0 + 2 ^ 8 * nth (4 * k + 1) l 0 + 2 ^ 16 * nth (4 * k + 2) l 0 + 2 ^ 24 * nth (4 * k + 3) l 0,
                 mkCA l (4 * Z.of_nat (before k) + 3) (gseed s)) /\
  (forall j, nth j l 0 = if (4 * k <=? j)%nat && (j <? 4 * k + 4)%nat
      then R (left (cells s) j + nth j (cells s) 0) else nth j (cells s) 0) /\
  cagood (mkCA l (4 * Z.of_nat (before k) + 3) (gseed s)) (before k).
Proof.
  intros [L B K C]. unfold ca_get. rewrite C.
  set (l0 := cells s) in *.
  replace (4 * Z.of_nat k + 3 - 1)%Z with (4 * Z.of_nat k + 2)%Z by lia.
  replace (4 * Z.of_nat k + 2 - 1)%Z with (4 * Z.of_nat k + 1)%Z by lia.
  replace (4 * Z.of_nat k + 1 - 1)%Z with (4 * Z.of_nat k)%Z by lia.
  set (i := (4 * k)%nat). 
  assert (I0 : Z.to_nat (4 * Z.of_nat k) = i) by lia.
  assert (I1 : Z.to_nat (4 * Z.of_nat k + 1) = S i) by lia.
  assert (I2 : Z.to_nat (4 * Z.of_nat k + 2) = S (S i)) by lia.
  assert (I3 : Z.to_nat (4 * Z.of_nat k + 3) = S (S (S i))) by lia.
  assert (HI : (i + 3 < 2056)%nat) by lia.
  rewrite ca_cell_ok by (auto; lia). cbn [bind]. rewrite I3, I2.
  set (r3 := R (nth (S (S i)) l0 0 + nth (S (S (S i))) l0 0)).
  assert (B3 : r3 < 256) by (apply R_byte; pose proof (bytes_nth l0 (S (S i)) B); pose proof (bytes_nth l0 (S (S (S i))) B); lia).
  set (l1 := set_nth l0 (S (S (S i))) r3).
  assert (L1 : length l1 = 2056%nat) by (unfold l1; rewrite set_nth_length; exact L).
  assert (BB1 : bytes l1) by (apply bytes_set; assumption).
  rewrite ca_cell_ok by (auto; lia). cbn [bind]. rewrite I2, I1.
  assert (E1 : forall j, (j <= S (S i))%nat -> nth j l1 0 = nth j l0 0) by (intros j Hj; unfold l1; rewrite !nth_set_nth_ne by lia; reflexivity). rewrite !E1 by lia.
  set (r2 := R (nth (S i) l0 0 + nth (S (S i)) l0 0)).
  assert (B2 : r2 < 256) by (apply R_byte; pose proof (bytes_nth l0 (S (S i)) B); pose proof (bytes_nth l0 (S i) B); lia).
  set (l2 := set_nth l1 (S (S i)) r2).
  assert (L2 : length l2 = 2056%nat) by (unfold l2; rewrite set_nth_length; exact L1).
  assert (BB2 : bytes l2) by (apply bytes_set; assumption).
  rewrite ca_cell_ok by (auto; lia). cbn [bind]. rewrite I1, I0.
  assert (E2 : forall j, (j <= S i)%nat -> nth j l2 0 = nth j l0 0) by (intros j Hj; unfold l2, l1; rewrite !nth_set_nth_ne by lia; reflexivity). rewrite !E2 by lia.
  set (r1 := R (nth i l0 0 + nth (S i) l0 0)).
  assert (B1 : r1 < 256) by (apply R_byte; pose proof (bytes_nth l0 i B); pose proof (bytes_nth l0 (S i) B); lia).
  set (l3 := set_nth l2 (S i) r1).
  assert (L3 : length l3 = 2056%nat) by (unfold l3; rewrite set_nth_length; exact L2).
  assert (BB3 : bytes l3) by (apply bytes_set; assumption).
  assert (E3 : forall j, (j <= i)%nat -> nth j l3 0 = nth j l0 0).
  { intros j Hj. unfold l3, l2, l1. rewrite !nth_set_nth_ne by lia. reflexivity. }
  set (r0 := R (left l0 i + nth i l0 0)).
  assert (B0 : r0 < 256) by (apply R_byte; pose proof (bytes_nth l0 i B); pose proof (left_lt l0 i B); lia).
  set (l4 := set_nth l3 i r0).
  assert (L4 : length l4 = 2056%nat) by (unfold l4; rewrite set_nth_length; exact L3).
  assert (BB4 : bytes l4) by (apply bytes_set; assumption).
  assert (E4 : (if (4 * Z.of_nat k =? 0)%Z then
      do x <- aget l3 (4 * Z.of_nat k) ;;
      do v <- aget ca_rule (Z.of_N x) ;;
      do l <- aset l3 (4 * Z.of_nat k) (v mod 256) ;;
      Ok (l, Z.of_N CA_WIDTH - 1)%Z
    else
      do l <- ca_cell l3 (4 * Z.of_nat k) (4 * Z.of_nat k - 1)%Z ;;
      Ok (l, (4 * Z.of_nat k + 3 - 4)%Z)) = Ok (l4, (4 * Z.of_nat (before k) + 3)%Z)).
  { destruct (Z.eqb_spec (4 * Z.of_nat k) 0) as [Z0|Z0].
    - assert (k = 0)%nat by lia. 
      rewrite (aget_ok l3 _ 0) by lia. cbn [bind]. rewrite I0, E3 by lia.
      pose proof (bytes_nth l0 i B).
      rewrite (aget_ok ca_rule _ 0) by (change (length ca_rule) with 511%nat; lia). cbn [bind].
      rewrite aset_ok by lia. cbn [bind]. rewrite I0. subst k. f_equal. match goal with |- (?x, _) = (?y, _) => assert (EE : x = y); [|rewrite EE; reflexivity] end.
      unfold l4, r0. replace (left l0 i) with 0 by reflexivity. rewrite to_nat_of_N, N.add_0_l. f_equal.
      apply N.mod_small. apply (R_byte (nth i l0 0)). lia.
    - destruct k as [|k']; [lia|]. rewrite ca_cell_ok by (auto; lia). cbn [bind]. rewrite I0.
      f_equal. f_equal; [|cbn [before]; lia]. unfold l4, r0. f_equal. f_equal.
      replace (Z.to_nat (4 * Z.of_nat (S k') - 1)) with (i - 1)%nat by lia. rewrite !E3 by lia.
      f_equal. unfold i. replace (4 * S k')%nat with (S (4 * k' + 3)) by lia. cbn [left]. f_equal. lia. }
  rewrite E4. cbn [bind]. clear E4.
  rewrite (aget_ok l4 (4 * Z.of_nat k) 0) by lia. cbn [bind].
  rewrite (aget_ok l4 (4 * Z.of_nat k + 1) 0) by lia. cbn [bind].
  rewrite (aget_ok l4 (4 * Z.of_nat k + 2) 0) by lia. cbn [bind].
  rewrite (aget_ok l4 (4 * Z.of_nat k + 3) 0) by lia. cbn [bind]. rewrite I0, I1, I2, I3.
  exists l4. split.
  { replace (i + 1)%nat with (S i) by lia. replace (i + 2)%nat with (S (S i)) by lia. replace (i + 3)%nat with (S (S (S i))) by lia. reflexivity. }
  split.
  - intro j. fold i.
    destruct (Nat.leb_spec i j); cbn [andb].
    + destruct (Nat.ltb_spec j (i + 4)).
      * assert (D : j = i \/ j = S i \/ j = S (S i) \/ j = S (S (S i))) by lia.
        destruct D as [ -> | [ -> | [ -> | -> ]]]; unfold l4, l3, l2, l1.
        -- rewrite nth_set_nth_eq by (fold l1; fold l2; fold l3; lia). reflexivity.
        -- rewrite nth_set_nth_ne by lia. rewrite nth_set_nth_eq by (fold l1; fold l2; lia). reflexivity.
        -- rewrite !nth_set_nth_ne by lia. rewrite nth_set_nth_eq by (fold l1; lia). reflexivity.
        -- rewrite !nth_set_nth_ne by lia. rewrite nth_set_nth_eq by (rewrite L; lia). reflexivity.
      * unfold l4, l3, l2, l1. rewrite !nth_set_nth_ne by lia. reflexivity.
    + unfold l4, l3, l2, l1. rewrite !nth_set_nth_ne by lia. reflexivity.
  - constructor; cbn [cells cur]; auto. destruct k; cbn [before]; lia.
Qed.

Lemma ca_get_inv s k v s' : cagood s k -> ca_get s = Ok (v, s') ->
  v < 2 ^ 32 /\ cagood s' (before k) /\ gseed s' = gseed s /\
  v = nth (4 * k) (cells s') 0 + 2 ^ 8 * nth (4 * k + 1) (cells s') 0 + 2 ^ 16 * nth (4 * k + 2) (cells s') 0 + 2 ^ 24 * nth (4 * k + 3) (cells s') 0 /\
  (forall j, nth j (cells s') 0 = if (4 * k <=? j)%nat && (j <? 4 * k + 4)%nat
      then R (left (cells s) j + nth j (cells s) 0) else nth j (cells s) 0).
Proof.
  intros G E. destruct (ca_get_ok s k G) as (l & E' & J & G'). rewrite E' in E.
  assert (Es : s' = mkCA l (4 * Z.of_nat (before k) + 3) (gseed s)) by congruence.
  assert (Ev : v = nth (4 * k) l 0 + 2 ^ 8 * nth (4 * k + 1) l 0 + 2 ^ 16 * nth (4 * k + 2) l 0 + 2 ^ 24 * nth (4 * k + 3) l 0) by congruence.
  subst s'. cbn [cells gseed]. split; [|auto]. rewrite Ev. destruct G' as [_ B _ _]. cbn [cells] in B.
  pose proof (bytes_nth l (4 * k) B). pose proof (bytes_nth l (4 * k + 1) B).
  pose proof (bytes_nth l (4 * k + 2) B). pose proof (bytes_nth l (4 * k + 3) B).
  change (2 ^ 8) with 256. change (2 ^ 16) with 65536. change (2 ^ 24) with 16777216. change (2 ^ 32) with 4294967296. lia.
Qed.

Lemma four_bytes a b c d a' b' c' d' : a < 256 -> b < 256 -> c < 256 -> a' < 256 -> b' < 256 -> c' < 256 ->
  a + 2 ^ 8 * b + 2 ^ 16 * c + 2 ^ 24 * d = a' + 2 ^ 8 * b' + 2 ^ 16 * c' + 2 ^ 24 * d' ->
  a = a' /\ b = b' /\ c = c' /\ d = d'.
Proof. change (2 ^ 8) with 256. change (2 ^ 16) with 65536. change (2 ^ 24) with 16777216. lia. Qed.

(** Equal numbers drawn: equal cells. *)
Lemma ca_see s1 s2 k v s1' s2' : cagood s1 k -> cagood s2 k -> ca_get s1 = Ok (v, s1') -> ca_get s2 = Ok (v, s2') ->
  (forall j, (4 * k + 4 <= j)%nat -> nth j (cells s1) 0 = nth j (cells s2) 0) ->
  forall j, (4 * k <= j)%nat -> nth j (cells s1') 0 = nth j (cells s2') 0.
Proof.
  intros G1 G2 E1 E2 A j Hj.
  destruct (ca_get_inv _ _ _ _ G1 E1) as (_ & [_ B1 _ _] & _ & V1 & J1).
  destruct (ca_get_inv _ _ _ _ G2 E2) as (_ & [_ B2 _ _] & _ & V2 & J2).
  rewrite V1 in V2. apply four_bytes in V2; try (apply bytes_nth; assumption).
  destruct V2 as (W0 & W1 & W2 & W3).
  destruct (Nat.lt_ge_cases j (4 * k + 4)) as [C|C].
  - assert (D : j = (4 * k)%nat \/ j = (4 * k + 1)%nat \/ j = (4 * k + 2)%nat \/ j = (4 * k + 3)%nat) by lia.
    destruct D as [ -> | [ -> | [ -> | -> ]]]; assumption.
  - rewrite J1, J2. replace (j <? 4 * k + 4)%nat with false by lia. rewrite andb_false_r. apply A, C.
Qed.
(** Equal cells after a step: equal cells before. *)
Lemma ca_back s1 s2 k v1 v2 s1' s2' : cagood s1 k -> cagood s2 k -> ca_get s1 = Ok (v1, s1') -> ca_get s2 = Ok (v2, s2') ->
  cells s1' = cells s2' -> cells s1 = cells s2.
Proof.
  intros G1 G2 E1 E2 A.
  destruct (ca_get_inv _ _ _ _ G1 E1) as (_ & _ & _ & _ & J1).
  destruct (ca_get_inv _ _ _ _ G2 E2) as (_ & _ & _ & _ & J2).
  destruct G1 as [L1 B1 _ _], G2 as [L2 B2 _ _].
  apply (nth_ext _ _ 0 0); [congruence|]. intros j _. induction j as [|j IH].
  - specialize (J1 0%nat). specialize (J2 0%nat). rewrite A, J2 in J1.
    destruct ((4 * k <=? 0)%nat && (0 <? 4 * k + 4)%nat); [|congruence].
    cbn [left] in J1. symmetry. apply (R_inj 0); try apply bytes_nth; auto. reflexivity.
  - specialize (J1 (S j)). specialize (J2 (S j)). rewrite A, J2 in J1.
    destruct ((4 * k <=? S j)%nat && (S j <? 4 * k + 4)%nat); [|congruence].
    cbn [left] in J1. rewrite IH in J1.
    symmetry. apply (R_inj (nth j (cells s2) 0)); try apply bytes_nth; auto.
Qed.

(** ** Many steps *)
Fixpoint pass (n k : nat) : nat := match n with O => k | S n => pass n (before k) end.
Lemma ca_draws n : forall s k, cagood s k -> exists vs s', draws ca_get n s = Ok (vs, s') /\
  length vs = n /\ Forall (fun v => v < 2 ^ 32) vs /\ cagood s' (pass n k) /\ gseed s' = gseed s.
Proof.
  induction n as [|n IH]; intros s k G; cbn [draws pass].
  - exists [], s. repeat split; auto; apply G.
  - destruct (ca_get_ok s k G) as (l & E & _). destruct (ca_get_inv _ _ _ _ G E) as (V & G' & S' & _).
    rewrite E. cbn [bind]. destruct (IH _ _ G') as (vs & s' & -> & L & F & G'' & S''). cbn [bind].
    exists (nth (4 * k) l 0 + 2 ^ 8 * nth (4 * k + 1) l 0 + 2 ^ 16 * nth (4 * k + 2) l 0 + 2 ^ 24 * nth (4 * k + 3) l 0 :: vs), s'.
    split; [reflexivity|]. split; [cbn [length]; rewrite L; reflexivity|]. split; [constructor; assumption|].
    split; [assumption|]. rewrite S''. exact S'.
Qed.
Lemma draws_cons {St} (get : St -> outcome (N * St)) n s vs s' : draws get (S n) s = Ok (vs, s') ->
  exists v s1 vs', get s = Ok (v, s1) /\ draws get n s1 = Ok (vs', s') /\ vs = v :: vs'.
Proof.
  cbn [draws]. destruct (get s) as [[v s1]| | |]; try discriminate. cbn [bind].
  destruct (draws get n s1) as [[vs' s2]| | |] eqn:E; try discriminate. cbn [bind]. intro H.
  exists v, s1, vs'. split; [reflexivity|]. split; [|congruence]. rewrite E. congruence.
Qed.
Lemma ca_draws_see n : forall s1 s2 k vs s1' s2', cagood s1 k -> cagood s2 k -> (n <= S k)%nat ->
  draws ca_get n s1 = Ok (vs, s1') -> draws ca_get n s2 = Ok (vs, s2') ->
  (forall j, (4 * k + 4 <= j)%nat -> nth j (cells s1) 0 = nth j (cells s2) 0) ->
  forall j, (4 * (S k - n) <= j)%nat -> nth j (cells s1') 0 = nth j (cells s2') 0.
Proof.
  induction n as [|n IH]; intros s1 s2 k vs s1' s2' G1 G2 Hn D1 D2 A j Hj.
  - cbn [draws] in D1, D2. assert (s1 = s1') by congruence. assert (s2 = s2') by congruence. subst. apply A. lia.
  - apply draws_cons in D1. destruct D1 as (v & t1 & ws & E1 & D1 & Ew).
    apply draws_cons in D2. destruct D2 as (v2 & t2 & ws2 & E2 & D2 & Ew2).
    assert (v2 = v) by congruence. assert (ws2 = ws) by congruence. subst v2 ws2.
    pose proof (ca_see _ _ _ _ _ _ G1 G2 E1 E2 A) as A'.
    destruct (ca_get_inv _ _ _ _ G1 E1) as (_ & G1' & _). destruct (ca_get_inv _ _ _ _ G2 E2) as (_ & G2' & _).
    destruct k as [|k].
    + assert (n = 0)%nat by lia. subst n. cbn [draws] in D1, D2.
      assert (t1 = s1') by congruence. assert (t2 = s2') by congruence. subst. apply A'. lia.
    + cbn [before] in G1', G2'. apply (IH t1 t2 k ws s1' s2'); auto; try lia.
      intros i Hi. apply A'. lia.
Qed.
Lemma ca_draws_back n : forall s1 s2 k vs1 vs2 s1' s2', cagood s1 k -> cagood s2 k ->
  draws ca_get n s1 = Ok (vs1, s1') -> draws ca_get n s2 = Ok (vs2, s2') ->
  cells s1' = cells s2' -> cells s1 = cells s2.
Proof.
  induction n as [|n IH]; intros s1 s2 k vs1 vs2 s1' s2' G1 G2 D1 D2 A.
  - cbn [draws] in D1, D2. congruence.
  - apply draws_cons in D1. destruct D1 as (v & t1 & ws & E1 & D1 & _).
    apply draws_cons in D2. destruct D2 as (v2 & t2 & ws2 & E2 & D2 & _).
    destruct (ca_get_inv _ _ _ _ G1 E1) as (_ & G1' & _). destruct (ca_get_inv _ _ _ _ G2 E2) as (_ & G2' & _).
    apply (ca_back _ _ _ _ _ _ _ G1 G2 E1 E2). apply (IH _ _ _ _ _ _ _ G1' G2' D1 D2 A).
Qed.
(** A full pass shows all cells. *)
Lemma ca_pass s1 s2 vs s1' s2' : cagood s1 513 -> cagood s2 513 ->
  draws ca_get 514 s1 = Ok (vs, s1') -> draws ca_get 514 s2 = Ok (vs, s2') -> cells s1 = cells s2.
Proof.
  intros G1 G2 D1 D2. apply (ca_draws_back 514 _ _ _ _ _ _ _ G1 G2 D1 D2).
  destruct (ca_draws 514 _ _ G1) as (v1 & t1 & E1 & _ & _ & [L1 _ _ _] & _). rewrite E1 in D1.
  destruct (ca_draws 514 _ _ G2) as (v2 & t2 & E2 & _ & _ & [L2 _ _ _] & _). rewrite E2 in D2.
  assert (t1 = s1') by congruence. assert (t2 = s2') by congruence. subst t1 t2.
  apply (nth_ext _ _ 0 0); [congruence|]. intros j _.
  apply (ca_draws_see 514 s1 s2 513 vs); auto; try lia; try congruence.
  intros i Hi. destruct G1 as [M1 _ _ _], G2 as [M2 _ _ _]. rewrite !nth_overflow by lia. reflexivity.
Qed.

(** The start-up of the automaton. *)
Lemma ca_evolve_succ n s : ca_evolve (N.succ n) s = do t <- ca_evolve n s ;; do (v, u) <- ca_get t ;; Ok u.
Proof. unfold ca_evolve. rewrite N.iter_succ. reflexivity. Qed.
Lemma ca_evolve_ok n s : cagood s 513 -> exists s' k, ca_evolve n s = Ok s' /\ cagood s' k /\
  N.of_nat k = (513 + 513 * n) mod 514 /\ gseed s' = gseed s.
Proof.
  intro G. induction n as [|n IH] using N.peano_ind.
  - exists s, 513%nat. split; [reflexivity|]. auto.
  - destruct IH as (t & k & E & Gt & K & S'). rewrite ca_evolve_succ, E. cbn [bind].
    destruct (ca_get_ok t k Gt) as (l & E' & _). destruct (ca_get_inv _ _ _ _ Gt E') as (_ & G' & S'' & _).
    rewrite E'. cbn [bind]. eexists. exists (before k). split; [reflexivity|]. split; [exact G'|].
    split; [|rewrite S''; exact S'].
    replace (513 + 513 * N.succ n) with (513 + 513 * n + 513) by lia.
    rewrite N.add_mod by discriminate. rewrite <- K. change (513 mod 514) with 513.
    destruct Gt as [_ _ Hk _]. destruct k as [|k]; cbn [before]; [reflexivity|].
    apply (N.mod_unique _ _ 1); lia.
Qed.
Lemma ca_evolve_back n s1 s2 s1' s2' : cagood s1 513 -> cagood s2 513 ->
  ca_evolve n s1 = Ok s1' -> ca_evolve n s2 = Ok s2' -> cells s1' = cells s2' -> cells s1 = cells s2.
Proof.
  intros G1 G2. revert s1' s2'. induction n as [|n IH] using N.peano_ind; intros s1' s2' E1 E2 A.
  - unfold ca_evolve in E1, E2. cbn [N.iter] in E1, E2. congruence.
  - rewrite ca_evolve_succ in E1, E2.
    destruct (ca_evolve_ok n s1 G1) as (t1 & k1 & F1 & H1 & K1 & _). rewrite F1 in E1. cbn [bind] in E1.
    destruct (ca_evolve_ok n s2 G2) as (t2 & k2 & F2 & H2 & K2 & _). rewrite F2 in E2. cbn [bind] in E2.
    assert (k2 = k1) by lia. subst k2.
    destruct (ca_get t1) as [[v1 u1]| | |] eqn:D1; try discriminate. cbn [bind] in E1.
    destruct (ca_get t2) as [[v2 u2]| | |] eqn:D2; try discriminate. cbn [bind] in E2.
    apply (IH t1 t2 F1 F2). apply (ca_back _ _ _ _ _ _ _ H1 H2 D1 D2). congruence.
Qed.

(** The cells before the start-up. *)
Lemma ca_init_good seed seed' g : cagood (mkCA (ca_init seed seed') (Z.of_N CA_WIDTH - 1) g) 513.
Proof.
  constructor; cbn [cells cur]; [|..|lia|reflexivity].
  - unfold ca_init. rewrite app_length, map_length, seq_length. reflexivity.
  - unfold ca_init. apply Forall_app. split.
    + apply Forall_forall. intros x Hx. apply in_map_iff in Hx. destruct Hx as (i & <- & _). apply N.mod_lt. discriminate.
    + repeat (apply Forall_cons; [apply N.mod_lt; discriminate|]). apply Forall_nil.
Qed.
Lemma ca_init_last seed seed' : nth 2055 (ca_init seed seed') 0 = seed mod 256.
Proof.
  unfold ca_init. rewrite app_nth2; rewrite map_length, seq_length; [reflexivity|].
  change (N.to_nat (CA_WIDTH - 4)) with 2052%nat. lia.
Qed.
Lemma ca_init_cell seed seed' i : (i < 2052)%nat ->
  nth i (ca_init seed seed') 0 = N.shiftr seed' (N.of_nat i mod 32) mod 256.
Proof.
  intro H. unfold ca_init. change (N.to_nat (CA_WIDTH - 4)) with 2052%nat.
  set (f := fun j => N.shiftr seed' (N.of_nat j mod 32) mod 256).
  rewrite app_nth1 by (rewrite map_length, seq_length; exact H).
  rewrite (nth_indep _ 0 (f 0%nat)) by (rewrite map_length, seq_length; exact H).
  rewrite map_nth, seq_nth by exact H. reflexivity.
Qed.

(** The global seed after [ca_set]. *)
Definition seed_next (seed : N) : N := if seed =? 4294967295 then seed else w64 (seed + 1).
Definition ca_seeded (seed : N) : castate := mkCA (ca_init seed (seed_next seed)) (Z.of_N CA_WIDTH - 1) (seed_next seed).
Lemma ca_set_eq old s : ca_set old s = ca_evolve 1056784 (ca_seeded (gseed old)).
Proof. unfold ca_set, ca_seeded, seed_next. cbv zeta. generalize 1056784. intro n. reflexivity. Qed.
Lemma ca_seeded_good seed : cagood (ca_seeded seed) 513.
Proof. apply ca_init_good. Qed.
Lemma ca_set_ok old s : exists st, ca_set old s = Ok st /\ cagood st 513 /\ gseed st = seed_next (gseed old).
Proof.
  rewrite ca_set_eq. destruct (ca_evolve_ok 1056784 _ (ca_seeded_good (gseed old))) as (st & k & E & G & K & S').
  exists st. split; [exact E|]. split; [|exact S'].
  change ((513 + 513 * 1056784) mod 514) with 513 in K. replace 513%nat with k by lia. exact G.
Qed.
(** The numbers after seeding determine the cells seeded with. *)
Lemma ca_set_see old1 old2 s1 s2 st1 st2 vs t1 t2 :
  ca_set old1 s1 = Ok st1 -> ca_set old2 s2 = Ok st2 ->
  draws ca_get 514 st1 = Ok (vs, t1) -> draws ca_get 514 st2 = Ok (vs, t2) ->
  ca_init (gseed old1) (seed_next (gseed old1)) = ca_init (gseed old2) (seed_next (gseed old2)).
Proof.
  intros E1 E2 D1 D2.
  destruct (ca_set_ok old1 s1) as (u1 & F1 & G1 & _). rewrite F1 in E1. assert (u1 = st1) by congruence. subst u1.
  destruct (ca_set_ok old2 s2) as (u2 & F2 & G2 & _). rewrite F2 in E2. assert (u2 = st2) by congruence. subst u2.
  pose proof (ca_pass _ _ _ _ _ G1 G2 D1 D2) as A.
  rewrite ca_set_eq in F1, F2.
  exact (ca_evolve_back _ _ _ _ _ (ca_seeded_good _) (ca_seeded_good _) F1 F2 A).
Qed.
