From Verif Require Import BaseLemmas PopcountLemmas AesModel AesSpec AesLemmas AesLemmas2.
Open Scope N_scope.

(** ** A schedule exists *)
Definition next_word (Nk : nat) (key : list N) (l : list col) : col :=
  let i := length l in
  let w j := nth j l (0, 0, 0, 0) in
  if Nat.ltb i Nk then (nth (4 * i) key 0, nth (4 * i + 1) key 0, nth (4 * i + 2) key 0, nth (4 * i + 3) key 0)
  else col_xor (w (i - Nk)%nat)
      (if Nat.eqb (Nat.modulo i Nk) 0 then col_xor (sub_word (rot_word (w (i - 1)%nat))) (rcon_power (Nat.div i Nk - 1), 0, 0, 0)
       else if Nat.ltb 6 Nk && Nat.eqb (Nat.modulo i Nk) 4 then sub_word (w (i - 1)%nat)
       else w (i - 1)%nat).
Fixpoint expand (Nk : nat) (key : list N) (n : nat) : list col :=
  match n with O => [] | S n => let l := expand Nk key n in l ++ [next_word Nk key l] end.
Definition sched (Nk : nat) (key : list N) (i : nat) : col := nth i (expand Nk key (S i)) (0, 0, 0, 0).
Lemma expand_length : forall Nk key n, length (expand Nk key n) = n.
Proof. induction n; cbn [expand]; [reflexivity|]. rewrite app_length, IHn. cbn. lia. Qed.
Lemma expand_nth : forall Nk key n i, (i < n)%nat -> nth i (expand Nk key n) (0, 0, 0, 0) = sched Nk key i.
Proof.
  intros Nk key. induction n as [|n IH]; intros i I; [lia|]. destruct (Nat.eq_dec i n) as [->|NE]; [reflexivity|].
  cbn [expand]. rewrite app_nth1 by (rewrite expand_length; lia). apply IH. lia.
Qed.
Lemma sched_next : forall Nk key i, sched Nk key i = next_word Nk key (expand Nk key i).
Proof. intros. unfold sched. cbn [expand]. rewrite app_nth2 by (rewrite expand_length; lia). rewrite expand_length, Nat.sub_diag. reflexivity. Qed.
Lemma sched_ok : forall Nk key, (0 < Nk)%nat -> KeySchedule Nk key (sched Nk key).
Proof.
  intros Nk key K. split; intros i I; rewrite sched_next; unfold next_word; rewrite expand_length.
  - rewrite (proj2 (Nat.ltb_lt i Nk)) by exact I. reflexivity.
  - rewrite (proj2 (Nat.ltb_ge i Nk)) by exact I. rewrite !expand_nth by lia. reflexivity.
Qed.

Lemma rcon_byte : forall n, byte (rcon_power n).
Proof. induction n; cbn [rcon_power]; [reflexivity|]. apply xtime_byte. exact IHn. Qed.
Lemma byte0 : byte 0. Proof. reflexivity. Qed.
Lemma rot_bytes : forall x, bcol x -> bcol (rot_word x).
Proof. intros [[[a b] c] d] (A & B & C & D). cbn [rot_word bcol]. auto. Qed.
Lemma sched_bytes : forall Nk key W, (0 < Nk)%nat -> length key = (4 * Nk)%nat -> (forall x, In x key -> byte x) -> KeySchedule Nk key W -> forall i, bcol (W i).
Proof.
  intros Nk key W K L B [S1 S2]. assert (G : forall n i, (i < n)%nat -> bcol (W i)).
  { induction n as [|n IH]; intros i I; [lia|]. destruct (Nat.ltb_spec i Nk) as [Q|Q].
    - rewrite S1 by exact Q. cbn [bcol]. repeat match goal with |- _ /\ _ => split end; apply B, nth_In; lia.
    - rewrite S2 by exact Q. apply bcol_xor; [apply IH; lia|].
      assert (B1 : bcol (W (i - 1)%nat)) by (apply IH; lia).
      destruct (Nat.eqb _ 0).
      + apply bcol_xor; [apply bcol_sbox, rot_bytes; exact B1|]. cbn [bcol]. auto using rcon_byte, byte0.
      + destruct (_ && _); [apply bcol_sbox|]; exact B1. }
  intro i. apply (G (S i)). lia.
Qed.

(** ** The array holds the first n words *)
Section Setup.
Variable W : nat -> col.
Hypothesis WB : forall i, bcol (W i).
Definition good (L n : nat) (rk : list N) : Prop := length rk = L /\ forall j, (j < n)%nat -> nth j rk 0 = pack (W j).
Lemma good_get : forall L n rk j, good L n rk -> (n <= L)%nat -> (j < n)%nat -> aget rk (Z.of_nat j) = Ok (pack (W j)).
Proof. intros L n rk j [G1 G2] NL J. rewrite (aget_ok rk _ 0) by lia. rewrite Nat2Z.id, G2 by exact J. reflexivity. Qed.
Lemma good_set : forall L n rk x, good L n rk -> (n < L)%nat -> x = pack (W n) -> exists rk', aset rk (Z.of_nat n) x = Ok rk' /\ good L (S n) rk'.
Proof.
  intros L n rk x [G1 G2] NL ->. rewrite aset_ok by lia. rewrite Nat2Z.id. eexists. split; [reflexivity|]. split; [rewrite set_nth_length; exact G1|].
  intros j J. destruct (Nat.eq_dec j n) as [->|NE]; [apply nth_set_nth_eq; lia|]. rewrite nth_set_nth_ne by auto. apply G2. lia.
Qed.
Lemma put_xor_ok : forall L n rk a x, good L n rk -> (n < L)%nat -> (a < n)%nat -> N.lxor (pack (W a)) x = pack (W n) ->
  exists rk', put_xor rk (Z.of_nat n) (Z.of_nat a) x = Ok rk' /\ good L (S n) rk'.
Proof. intros L n rk a x G NL A E. unfold put_xor. rewrite (good_get L n) by (assumption || lia). cbn [bind]. apply good_set; assumption. Qed.
Lemma copy_xor_ok : forall L n rk a b, good L n rk -> (n < L)%nat -> (a < n)%nat -> (b < n)%nat -> W n = col_xor (W a) (W b) ->
  exists rk', copy_xor rk (Z.of_nat n) (Z.of_nat a) (Z.of_nat b) = Ok rk' /\ good L (S n) rk'.
Proof.
  intros L n rk a b G NL A B E. unfold copy_xor. rewrite (good_get L n) by (assumption || lia). cbn [bind]. apply put_xor_ok; try assumption. rewrite E, pack_xor. reflexivity.
Qed.
Lemma rcon_ok : forall i, (i < 10)%nat -> aget rcon (Z.of_nat i) = Ok (pack (rcon_power i, 0, 0, 0)).
Proof. intros i I. do 10 (destruct i as [|i]; [vm_compute; reflexivity|]). lia. Qed.
Lemma core_ok : forall L n rk last i, good L n rk -> (n <= L)%nat -> (last < n)%nat -> (i < 10)%nat ->
  core rk (Z.of_nat last) i = Ok (pack (col_xor (sub_word (rot_word (W last))) (rcon_power i, 0, 0, 0))).
Proof.
  intros L n rk last i G NL A I. unfold core. rewrite (good_get L n) by assumption. cbn [bind].
  pose proof (WB last) as B. rewrite pack_b0, pack_b1, pack_b2, pack_b3 by exact B. destruct (W last) as [[[x y] z] t]. destruct B as (BX & BY & BZ & BT). cbn [fst snd].
  rewrite look4_enc by assumption. cbn [bind]. rewrite rcon_ok by exact I. cbn [bind]. rewrite pack_xor. reflexivity.
Qed.
Lemma sub_ok : forall L n rk last, good L n rk -> (n <= L)%nat -> (last < n)%nat ->
  (do temp <- aget rk (Z.of_nat last) ;; look4 Te4 (b0 temp) (b1 temp) (b2 temp) (b3 temp)) = Ok (pack (sub_word (W last))).
Proof.
  intros L n rk last G NL A. rewrite (good_get L n) by assumption. cbn [bind].
  pose proof (WB last) as B. rewrite pack_b0, pack_b1, pack_b2, pack_b3 by exact B. destruct (W last) as [[[x y] z] t]. destruct B as (BX & BY & BZ & BT). cbn [fst snd].
  rewrite look4_enc by assumption. reflexivity.
Qed.

Section Key.
Variables (Nk : nat) (key : list N).
Hypothesis Nk0 : (0 < Nk)%nat.
Hypothesis S : KeySchedule Nk key W.
Lemma W_first : forall i q, i = (Nk * (q + 1))%nat -> W i = col_xor (W (Nk * q)%nat) (col_xor (sub_word (rot_word (W (i - 1)%nat))) (rcon_power q, 0, 0, 0)).
Proof.
  intros i q E. destruct S as [_ S2]. rewrite (S2 i) by nia. replace (i - Nk)%nat with (Nk * q)%nat by nia.
  assert (M : Nat.modulo i Nk = 0%nat) by (rewrite E, Nat.mul_comm; apply Nat.mod_mul; lia). rewrite M. cbn [Nat.eqb].
  assert (D : (i / Nk = q + 1)%nat) by (rewrite E, Nat.mul_comm; apply Nat.div_mul; lia). rewrite D. replace (q + 1 - 1)%nat with q by lia. reflexivity.
Qed.
Lemma W_other : forall i q r, i = (Nk * (q + 1) + r)%nat -> (0 < r < Nk)%nat -> (Nk <= 6 \/ r <> 4)%nat -> W i = col_xor (W (Nk * q + r)%nat) (W (i - 1)%nat).
Proof.
  intros i q r E R X. destruct S as [_ S2]. rewrite (S2 i) by nia. replace (i - Nk)%nat with (Nk * q + r)%nat by nia.
  assert (M : Nat.modulo i Nk = r) by (symmetry; apply Nat.mod_unique with (q := (q + 1)%nat); lia). rewrite M.
  replace (Nat.eqb r 0) with false by (symmetry; apply Nat.eqb_neq; lia).
  replace (Nat.ltb 6 Nk && Nat.eqb r 4) with false; [reflexivity|]. symmetry. apply andb_false_iff. destruct X as [X|X]; [left; apply Nat.ltb_ge; exact X|right; apply Nat.eqb_neq; exact X].
Qed.
Lemma W_mid : forall i q, i = (Nk * (q + 1) + 4)%nat -> (6 < Nk)%nat -> W i = col_xor (W (Nk * q + 4)%nat) (sub_word (W (i - 1)%nat)).
Proof.
  intros i q E R. destruct S as [_ S2]. rewrite (S2 i) by nia. replace (i - Nk)%nat with (Nk * q + 4)%nat by nia.
  assert (M : Nat.modulo i Nk = 4%nat) by (symmetry; apply Nat.mod_unique with (q := (q + 1)%nat); lia). rewrite M. cbn [Nat.eqb].
  rewrite (proj2 (Nat.ltb_lt 6 Nk)) by exact R. reflexivity.
Qed.
Hypothesis KL : length key = (4 * Nk)%nat.
Hypothesis KB : forall x, In x key -> byte x.
Lemma key_words_ok : forall n L k rk, good L k rk -> (k + n <= Nk)%nat -> (Nk <= L)%nat -> exists rk', key_words n k rk key = Ok rk' /\ good L (k + n) rk'.
Proof.
  induction n as [|n IH]; intros L k rk G KN NL; cbn [key_words].
  - exists rk. rewrite Nat.add_0_r. auto.
  - rewrite getu32_ok by (assumption || lia). cbn [bind].
    destruct (good_set L k rk (pack (W k)) G ltac:(lia) eq_refl) as (rk' & E & G').
    assert (WK : pack (nth (Z.to_nat (4 * Z.of_nat k)) key 0, nth (Z.to_nat (4 * Z.of_nat k) + 1) key 0, nth (Z.to_nat (4 * Z.of_nat k) + 2) key 0, nth (Z.to_nat (4 * Z.of_nat k) + 3) key 0) = pack (W k)).
    { destruct S as [S1 _]. rewrite S1 by lia. replace (Z.to_nat (4 * Z.of_nat k)) with (4 * k)%nat by lia. reflexivity. }
    rewrite WK, E. cbn [bind]. destruct (IH L (Datatypes.S k) rk' G' ltac:(lia) NL) as (rk2 & E2 & G2). exists rk2. split; [exact E2|]. replace (k + Datatypes.S n)%nat with (Datatypes.S k + n)%nat by lia. exact G2.
Qed.
End Key.

Lemma ks128_ok : forall key, KeySchedule 4 key W -> forall n f rk i, (i + n = 9)%nat -> (n < f)%nat -> good 44 (4 * i + 4) rk ->
  exists rk', ks128 f rk (Z.of_nat (4 * i)) i = Ok rk' /\ good 44 44 rk'.
Proof.
  intros key S. induction n as [|n IH]; intros f rk i I F G0; (destruct f as [|f]; [lia|]); cbn [ks128].
  all: replace (Z.of_nat (4 * i) + 1)%Z with (Z.of_nat (4 * i + 1)) by lia; replace (Z.of_nat (4 * i) + 2)%Z with (Z.of_nat (4 * i + 2)) by lia; replace (Z.of_nat (4 * i) + 3)%Z with (Z.of_nat (4 * i + 3)) by lia; replace (Z.of_nat (4 * i) + 4)%Z with (Z.of_nat (4 * i + 4)) by lia; replace (Z.of_nat (4 * i) + 5)%Z with (Z.of_nat (4 * i + 5)) by lia; replace (Z.of_nat (4 * i) + 6)%Z with (Z.of_nat (4 * i + 6)) by lia; replace (Z.of_nat (4 * i) + 7)%Z with (Z.of_nat (4 * i + 7)) by lia.
  all: rewrite (core_ok 44 (4 * i + 4)) by (assumption || lia); cbn [bind].
  all: destruct (put_xor_ok 44 (4 * i + 4) rk (4 * i) (pack (col_xor (sub_word (rot_word (W (4 * i + 3)))) (rcon_power i, 0, 0, 0))) G0 ltac:(lia) ltac:(lia) ltac:(rewrite <- pack_xor; f_equal; symmetry; rewrite (W_first 4 key ltac:(lia) S (4 * i + 4) i) by lia; replace (4 * i + 4 - 1)%nat with (4 * i + 3)%nat by lia; reflexivity)) as (rk1 & E1 & G1); rewrite E1; cbn [bind].
  all: replace (Datatypes.S (4 * i + 4)) with (4 * i + 5)%nat in G1 by lia; destruct (copy_xor_ok 44 (4 * i + 5) rk1 (4 * i + 1) (4 * i + 4) G1 ltac:(lia) ltac:(lia) ltac:(lia) ltac:(rewrite (W_other 4 key ltac:(lia) S _ i 1) by lia; do 2 f_equal; lia)) as (rk2 & E2 & G2); rewrite E2; cbn [bind].
  all: replace (Datatypes.S (4 * i + 5)) with (4 * i + 6)%nat in G2 by lia; destruct (copy_xor_ok 44 (4 * i + 6) rk2 (4 * i + 2) (4 * i + 5) G2 ltac:(lia) ltac:(lia) ltac:(lia) ltac:(rewrite (W_other 4 key ltac:(lia) S _ i 2) by lia; do 2 f_equal; lia)) as (rk3 & E3 & G3); rewrite E3; cbn [bind].
  all: replace (Datatypes.S (4 * i + 6)) with (4 * i + 7)%nat in G3 by lia; destruct (copy_xor_ok 44 (4 * i + 7) rk3 (4 * i + 3) (4 * i + 6) G3 ltac:(lia) ltac:(lia) ltac:(lia) ltac:(rewrite (W_other 4 key ltac:(lia) S _ i 3) by lia; do 2 f_equal; lia)) as (rk4 & E4 & G4); rewrite E4; cbn [bind].
  - assert (i = 9)%nat by lia. subst i. cbn [Nat.eqb]. exists rk4. split; [reflexivity|]. exact G4.
  - replace (Nat.eqb (Datatypes.S i) 10) with false by (symmetry; apply Nat.eqb_neq; lia).
    replace (Z.of_nat (4 * i + 4)) with (Z.of_nat (4 * Datatypes.S i)) by lia. apply (IH f rk4 (Datatypes.S i)); [lia|lia|]. replace (4 * Datatypes.S i + 4)%nat with (Datatypes.S (4 * i + 7)) by lia. exact G4.
Qed.
Lemma ks192_ok : forall key, KeySchedule 6 key W -> forall n f rk i, (i + n = 7)%nat -> (n < f)%nat -> good 52 (6 * i + 6) rk ->
  exists rk', ks192 f rk (Z.of_nat (6 * i)) i = Ok rk' /\ good 52 52 rk'.
Proof.
  intros key S. induction n as [|n IH]; intros f rk i I F G0; (destruct f as [|f]; [lia|]); cbn [ks192].
  all: replace (Z.of_nat (6 * i) + 1)%Z with (Z.of_nat (6 * i + 1)) by lia; replace (Z.of_nat (6 * i) + 2)%Z with (Z.of_nat (6 * i + 2)) by lia; replace (Z.of_nat (6 * i) + 3)%Z with (Z.of_nat (6 * i + 3)) by lia; replace (Z.of_nat (6 * i) + 4)%Z with (Z.of_nat (6 * i + 4)) by lia; replace (Z.of_nat (6 * i) + 5)%Z with (Z.of_nat (6 * i + 5)) by lia; replace (Z.of_nat (6 * i) + 6)%Z with (Z.of_nat (6 * i + 6)) by lia; replace (Z.of_nat (6 * i) + 7)%Z with (Z.of_nat (6 * i + 7)) by lia; replace (Z.of_nat (6 * i) + 8)%Z with (Z.of_nat (6 * i + 8)) by lia; replace (Z.of_nat (6 * i) + 9)%Z with (Z.of_nat (6 * i + 9)) by lia; replace (Z.of_nat (6 * i) + 10)%Z with (Z.of_nat (6 * i + 10)) by lia; replace (Z.of_nat (6 * i) + 11)%Z with (Z.of_nat (6 * i + 11)) by lia.
  all: rewrite (core_ok 52 (6 * i + 6)) by (assumption || lia); cbn [bind].
  all: destruct (put_xor_ok 52 (6 * i + 6) rk (6 * i) (pack (col_xor (sub_word (rot_word (W (6 * i + 5)))) (rcon_power i, 0, 0, 0))) G0 ltac:(lia) ltac:(lia) ltac:(rewrite <- pack_xor; f_equal; symmetry; rewrite (W_first 6 key ltac:(lia) S (6 * i + 6) i) by lia; replace (6 * i + 6 - 1)%nat with (6 * i + 5)%nat by lia; reflexivity)) as (rk1 & E1 & G1); rewrite E1; cbn [bind].
  all: replace (Datatypes.S (6 * i + 6)) with (6 * i + 7)%nat in G1 by lia; destruct (copy_xor_ok 52 (6 * i + 7) rk1 (6 * i + 1) (6 * i + 6) G1 ltac:(lia) ltac:(lia) ltac:(lia) ltac:(rewrite (W_other 6 key ltac:(lia) S _ i 1) by lia; do 2 f_equal; lia)) as (rk2 & E2 & G2); rewrite E2; cbn [bind].
  all: replace (Datatypes.S (6 * i + 7)) with (6 * i + 8)%nat in G2 by lia; destruct (copy_xor_ok 52 (6 * i + 8) rk2 (6 * i + 2) (6 * i + 7) G2 ltac:(lia) ltac:(lia) ltac:(lia) ltac:(rewrite (W_other 6 key ltac:(lia) S _ i 2) by lia; do 2 f_equal; lia)) as (rk3 & E3 & G3); rewrite E3; cbn [bind].
  all: replace (Datatypes.S (6 * i + 8)) with (6 * i + 9)%nat in G3 by lia; destruct (copy_xor_ok 52 (6 * i + 9) rk3 (6 * i + 3) (6 * i + 8) G3 ltac:(lia) ltac:(lia) ltac:(lia) ltac:(rewrite (W_other 6 key ltac:(lia) S _ i 3) by lia; do 2 f_equal; lia)) as (rk4 & E4 & G4); rewrite E4; cbn [bind].
  - assert (i = 7)%nat by lia. subst i. cbn [Nat.eqb]. exists rk4. split; [reflexivity|]. exact G4.
  - replace (Nat.eqb (Datatypes.S i) 8) with false by (symmetry; apply Nat.eqb_neq; lia).
    replace (Datatypes.S (6 * i + 9)) with (6 * i + 10)%nat in G4 by lia; destruct (copy_xor_ok 52 (6 * i + 10) rk4 (6 * i + 4) (6 * i + 9) G4 ltac:(lia) ltac:(lia) ltac:(lia) ltac:(rewrite (W_other 6 key ltac:(lia) S _ i 4) by lia; do 2 f_equal; lia)) as (rk5 & E5 & G5); rewrite E5; cbn [bind].
    replace (Datatypes.S (6 * i + 10)) with (6 * i + 11)%nat in G5 by lia; destruct (copy_xor_ok 52 (6 * i + 11) rk5 (6 * i + 5) (6 * i + 10) G5 ltac:(lia) ltac:(lia) ltac:(lia) ltac:(rewrite (W_other 6 key ltac:(lia) S _ i 5) by lia; do 2 f_equal; lia)) as (rk6 & E6 & G6); rewrite E6; cbn [bind].
    replace (Z.of_nat (6 * i + 6)) with (Z.of_nat (6 * Datatypes.S i)) by lia. apply (IH f rk6 (Datatypes.S i)); [lia|lia|]. replace (6 * Datatypes.S i + 6)%nat with (Datatypes.S (6 * i + 11)) by lia. exact G6.
Qed.
Lemma ks256_ok : forall key, KeySchedule 8 key W -> forall n f rk i, (i + n = 6)%nat -> (n < f)%nat -> good 60 (8 * i + 8) rk ->
  exists rk', ks256 f rk (Z.of_nat (8 * i)) i = Ok rk' /\ good 60 60 rk'.
Proof.
  intros key S. induction n as [|n IH]; intros f rk i I F G0; (destruct f as [|f]; [lia|]); cbn [ks256].
  all: replace (Z.of_nat (8 * i) + 1)%Z with (Z.of_nat (8 * i + 1)) by lia; replace (Z.of_nat (8 * i) + 2)%Z with (Z.of_nat (8 * i + 2)) by lia; replace (Z.of_nat (8 * i) + 3)%Z with (Z.of_nat (8 * i + 3)) by lia; replace (Z.of_nat (8 * i) + 4)%Z with (Z.of_nat (8 * i + 4)) by lia; replace (Z.of_nat (8 * i) + 5)%Z with (Z.of_nat (8 * i + 5)) by lia; replace (Z.of_nat (8 * i) + 6)%Z with (Z.of_nat (8 * i + 6)) by lia; replace (Z.of_nat (8 * i) + 7)%Z with (Z.of_nat (8 * i + 7)) by lia; replace (Z.of_nat (8 * i) + 8)%Z with (Z.of_nat (8 * i + 8)) by lia; replace (Z.of_nat (8 * i) + 9)%Z with (Z.of_nat (8 * i + 9)) by lia; replace (Z.of_nat (8 * i) + 10)%Z with (Z.of_nat (8 * i + 10)) by lia; replace (Z.of_nat (8 * i) + 11)%Z with (Z.of_nat (8 * i + 11)) by lia; replace (Z.of_nat (8 * i) + 12)%Z with (Z.of_nat (8 * i + 12)) by lia; replace (Z.of_nat (8 * i) + 13)%Z with (Z.of_nat (8 * i + 13)) by lia; replace (Z.of_nat (8 * i) + 14)%Z with (Z.of_nat (8 * i + 14)) by lia; replace (Z.of_nat (8 * i) + 15)%Z with (Z.of_nat (8 * i + 15)) by lia.
  all: rewrite (core_ok 60 (8 * i + 8)) by (assumption || lia); cbn [bind].
  all: destruct (put_xor_ok 60 (8 * i + 8) rk (8 * i) (pack (col_xor (sub_word (rot_word (W (8 * i + 7)))) (rcon_power i, 0, 0, 0))) G0 ltac:(lia) ltac:(lia) ltac:(rewrite <- pack_xor; f_equal; symmetry; rewrite (W_first 8 key ltac:(lia) S (8 * i + 8) i) by lia; replace (8 * i + 8 - 1)%nat with (8 * i + 7)%nat by lia; reflexivity)) as (rk1 & E1 & G1); rewrite E1; cbn [bind].
  all: replace (Datatypes.S (8 * i + 8)) with (8 * i + 9)%nat in G1 by lia; destruct (copy_xor_ok 60 (8 * i + 9) rk1 (8 * i + 1) (8 * i + 8) G1 ltac:(lia) ltac:(lia) ltac:(lia) ltac:(rewrite (W_other 8 key ltac:(lia) S _ i 1) by lia; do 2 f_equal; lia)) as (rk2 & E2 & G2); rewrite E2; cbn [bind].
  all: replace (Datatypes.S (8 * i + 9)) with (8 * i + 10)%nat in G2 by lia; destruct (copy_xor_ok 60 (8 * i + 10) rk2 (8 * i + 2) (8 * i + 9) G2 ltac:(lia) ltac:(lia) ltac:(lia) ltac:(rewrite (W_other 8 key ltac:(lia) S _ i 2) by lia; do 2 f_equal; lia)) as (rk3 & E3 & G3); rewrite E3; cbn [bind].
  all: replace (Datatypes.S (8 * i + 10)) with (8 * i + 11)%nat in G3 by lia; destruct (copy_xor_ok 60 (8 * i + 11) rk3 (8 * i + 3) (8 * i + 10) G3 ltac:(lia) ltac:(lia) ltac:(lia) ltac:(rewrite (W_other 8 key ltac:(lia) S _ i 3) by lia; do 2 f_equal; lia)) as (rk4 & E4 & G4); rewrite E4; cbn [bind].
  - assert (i = 6)%nat by lia. subst i. cbn [Nat.eqb]. exists rk4. split; [reflexivity|]. exact G4.
  - replace (Nat.eqb (Datatypes.S i) 7) with false by (symmetry; apply Nat.eqb_neq; lia).
    replace (Datatypes.S (8 * i + 11)) with (8 * i + 12)%nat in G4 by lia.
    pose proof (sub_ok 60 (8 * i + 12) rk4 (8 * i + 11) G4 ltac:(lia) ltac:(lia)) as SO. rewrite (good_get 60 (8 * i + 12) rk4 (8 * i + 11) G4) in SO |- * by lia. cbn [bind] in SO |- *. rewrite SO. cbn [bind].
    destruct (put_xor_ok 60 (8 * i + 12) rk4 (8 * i + 4) (pack (sub_word (W (8 * i + 11)))) G4 ltac:(lia) ltac:(lia) ltac:(rewrite <- pack_xor; f_equal; symmetry; rewrite (W_mid 8 key ltac:(lia) S (8 * i + 12) i) by lia; replace (8 * i + 12 - 1)%nat with (8 * i + 11)%nat by lia; reflexivity)) as (rk5 & E5 & G5); rewrite E5; cbn [bind].
    replace (Datatypes.S (8 * i + 12)) with (8 * i + 13)%nat in G5 by lia; destruct (copy_xor_ok 60 (8 * i + 13) rk5 (8 * i + 5) (8 * i + 12) G5 ltac:(lia) ltac:(lia) ltac:(lia) ltac:(rewrite (W_other 8 key ltac:(lia) S _ i 5) by lia; do 2 f_equal; lia)) as (rk6 & E6 & G6); rewrite E6; cbn [bind].
    replace (Datatypes.S (8 * i + 13)) with (8 * i + 14)%nat in G6 by lia; destruct (copy_xor_ok 60 (8 * i + 14) rk6 (8 * i + 6) (8 * i + 13) G6 ltac:(lia) ltac:(lia) ltac:(lia) ltac:(rewrite (W_other 8 key ltac:(lia) S _ i 6) by lia; do 2 f_equal; lia)) as (rk7 & E7 & G7); rewrite E7; cbn [bind].
    replace (Datatypes.S (8 * i + 14)) with (8 * i + 15)%nat in G7 by lia; destruct (copy_xor_ok 60 (8 * i + 15) rk7 (8 * i + 7) (8 * i + 14) G7 ltac:(lia) ltac:(lia) ltac:(lia) ltac:(rewrite (W_other 8 key ltac:(lia) S _ i 7) by lia; do 2 f_equal; lia)) as (rk8 & E8 & G8); rewrite E8; cbn [bind].
    replace (Z.of_nat (8 * i + 8)) with (Z.of_nat (8 * Datatypes.S i)) by lia. apply (IH f rk8 (Datatypes.S i)); [lia|lia|]. replace (8 * Datatypes.S i + 8)%nat with (Datatypes.S (8 * i + 15)) by lia. exact G8.
Qed.

Lemma key_setup_ok : forall Nk key rk, (Nk = 4 \/ Nk = 6 \/ Nk = 8)%nat -> KeySchedule Nk key W -> length key = (4 * Nk)%nat -> (forall x, In x key -> byte x) ->
  length rk = (4 * (Nk + 6) + 4)%nat ->
  exists rk', key_setup_enc rk key (32 * N.of_nat Nk) = Ok ((Nk + 6)%nat, rk') /\ good (4 * (Nk + 6) + 4) (4 * (Nk + 6) + 4) rk'.
Proof.
  intros Nk key rk NK S KL KB RL. unfold key_setup_enc.
  assert (G0 : good (4 * (Nk + 6) + 4) 0 rk) by (split; [exact RL|intros; lia]).
  destruct (key_words_ok Nk key ltac:(lia) S KL KB 4 _ 0 rk G0 ltac:(lia) ltac:(lia)) as (rk1 & E1 & G1). rewrite E1. cbn [bind].
  destruct NK as [->|[->| ->]].
  - change (32 * N.of_nat 4 =? 128) with true. cbn iota.
    destruct (ks128_ok key S 9 10 rk1 0 eq_refl ltac:(lia) G1) as (rk' & E & G). change (Z.of_nat (4 * 0)) with 0%Z in E. rewrite E. cbn [bind]. exists rk'. auto.
  - change (32 * N.of_nat 6 =? 128) with false. change (32 * N.of_nat 6 =? 192) with true. cbn iota.
    destruct (key_words_ok 6 key ltac:(lia) S KL KB 2 _ 4 rk1 G1 ltac:(lia) ltac:(lia)) as (rk2 & E2 & G2). rewrite E2. cbn [bind].
    destruct (ks192_ok key S 7 8 rk2 0 eq_refl ltac:(lia) G2) as (rk' & E & G). change (Z.of_nat (6 * 0)) with 0%Z in E. rewrite E. cbn [bind]. exists rk'. auto.
  - change (32 * N.of_nat 8 =? 128) with false. change (32 * N.of_nat 8 =? 192) with false. change (32 * N.of_nat 8 =? 256) with true. cbn iota.
    destruct (key_words_ok 8 key ltac:(lia) S KL KB 2 _ 4 rk1 G1 ltac:(lia) ltac:(lia)) as (rk2 & E2 & G2). rewrite E2. cbn [bind].
    destruct (key_words_ok 8 key ltac:(lia) S KL KB 2 _ 6 rk2 G2 ltac:(lia) ltac:(lia)) as (rk3 & E3 & G3). rewrite E3. cbn [bind].
    destruct (ks256_ok key S 6 7 rk3 0 eq_refl ltac:(lia) G3) as (rk' & E & G). change (Z.of_nat (8 * 0)) with 0%Z in E. rewrite E. cbn [bind]. exists rk'. auto.
Qed.
Lemma good_holds : forall L rk r, good L L rk -> (4 * r + 4 <= L)%nat -> holds rk (4 * Z.of_nat r) (round_key W r).
Proof.
  intros L rk r G R. unfold round_key, holds.
  replace (4 * Z.of_nat r)%Z with (Z.of_nat (4 * r)) by lia. replace (Z.of_nat (4 * r) + 1)%Z with (Z.of_nat (4 * r + 1)) by lia.
  replace (Z.of_nat (4 * r) + 2)%Z with (Z.of_nat (4 * r + 2)) by lia. replace (Z.of_nat (4 * r) + 3)%Z with (Z.of_nat (4 * r + 3)) by lia.
  repeat split; apply (good_get L L); (assumption || lia).
Qed.
Lemma encrypt_ok : forall Nk rk pt, (Nk = 4 \/ Nk = 6 \/ Nk = 8)%nat -> good (4 * (Nk + 6) + 4) (4 * (Nk + 6) + 4) rk -> length pt = 16%nat -> (forall x, In x pt -> byte x) ->
  encrypt rk (Nk + 6) pt = Ok (state_block (cipher (Nk + 6) W (block_state pt))).
Proof.
  intros Nk rk pt NK G L B. unfold encrypt. rewrite load_ok by assumption. cbn [bind].
  pose proof (good_holds _ _ 0 G ltac:(lia)) as H0. change (4 * Z.of_nat 0)%Z with 0%Z in H0. rewrite (add_key_ok _ _ _ _ H0). cbn [bind].
  pose proof (block_bytes pt L B) as BB. assert (B0 : bstate (st_xor (block_state pt) (round_key W 0))) by (apply bstate_xor; [exact BB|apply key_bytes; exact WB]).
  assert (HM : exists m, Nat.div2 (Nk + 6) = Datatypes.S m /\ (Nk + 6 = 2 * Datatypes.S m)%nat) by (destruct NK as [->|[->| ->]]; eexists; split; reflexivity).
  destruct HM as (m & HM & HN). rewrite HM.
  pose proof (enc_loop_ok W WB rk m (Datatypes.S (Nk + 6)) 0 _ ltac:(intros r R; apply (good_holds _ _ r G); lia) ltac:(lia) B0) as EL.
  change (4 * Z.of_nat 0)%Z with 0%Z in EL. rewrite EL. cbn [bind].
  assert (BR : bstate (rounds W 1 (2 * m + 1) (st_xor (block_state pt) (round_key W 0)))) by (apply rounds_bytes; assumption).
  rewrite (enc_last_ok rk _ (round_key W (0 + 2 * Datatypes.S m)) _ BR) by (apply (good_holds _ _ _ G); lia). cbn [bind].
  rewrite store_ok.
  - unfold cipher. replace (Nk + 6 - 1)%nat with (2 * m + 1)%nat by lia. rewrite HN. reflexivity.
  - apply bstate_xor; [apply bstate_shift_sub; exact BR|apply key_bytes; exact WB].
Qed.

(** ** Decryption keys *)
Lemma reverse10 : forall f : nat -> N, reverse_keys 11 (map f (seq 0 44)) 0 40 = Ok (map (fun j => f (4 * (10 - j / 4) + j mod 4)%nat) (seq 0 44)).
Proof. intro f. vm_compute. reflexivity. Qed.
Lemma reverse12 : forall f : nat -> N, reverse_keys 13 (map f (seq 0 52)) 0 48 = Ok (map (fun j => f (4 * (12 - j / 4) + j mod 4)%nat) (seq 0 52)).
Proof. intro f. vm_compute. reflexivity. Qed.
Lemma reverse14 : forall f : nat -> N, reverse_keys 15 (map f (seq 0 60)) 0 56 = Ok (map (fun j => f (4 * (14 - j / 4) + j mod 4)%nat) (seq 0 60)).
Proof. intro f. vm_compute. reflexivity. Qed.
Lemma good_map : forall L rk, good L L rk -> rk = map (fun j => pack (W j)) (seq 0 L).
Proof.
  intros L rk [G1 G2]. apply nth_ext with (d := 0) (d' := pack (W 0)); [rewrite map_length, seq_length; exact G1|].
  intros j J. rewrite (map_nth (fun j => pack (W j))), seq_nth by lia. apply G2. lia.
Qed.
Lemma inv_mix_at_ok : forall rk p y, (p < length rk)%nat -> inv_mix_word (nth p rk 0) = Ok y -> inv_mix_at rk (Z.of_nat p) = Ok (set_nth rk p y).
Proof. intros rk p y P E. unfold inv_mix_at. rewrite (aget_ok rk _ 0) by lia. cbn [bind]. rewrite Nat2Z.id, E. cbn [bind]. rewrite aset_ok by lia. rewrite Nat2Z.id. reflexivity. Qed.
Lemma inv_mix_keys_ok : forall g n rk p, (p + 4 * n <= length rk)%nat -> (forall j, (p <= j < p + 4 * n)%nat -> inv_mix_word (nth j rk 0) = Ok (g j)) ->
  exists rk', inv_mix_keys n rk (Z.of_nat p) = Ok rk' /\ length rk' = length rk /\
    forall j, nth j rk' 0 = if (Nat.leb p j && Nat.ltb j (p + 4 * n))%bool then g j else nth j rk 0.
Proof.
  intros g. induction n as [|n IH]; intros rk p L H; cbn [inv_mix_keys].
  - exists rk. split; [reflexivity|]. split; [reflexivity|]. intro j. destruct (Nat.leb_spec p j), (Nat.ltb_spec j (p + 4 * 0)); cbn [andb]; try reflexivity. lia.
  - replace (Z.of_nat p + 1)%Z with (Z.of_nat (p + 1)) by lia. replace (Z.of_nat p + 2)%Z with (Z.of_nat (p + 2)) by lia. replace (Z.of_nat p + 3)%Z with (Z.of_nat (p + 3)) by lia. replace (Z.of_nat p + 4)%Z with (Z.of_nat (p + 4)) by lia.
    rewrite (inv_mix_at_ok rk p (g p)) by (try apply H; lia). cbn [bind].
    rewrite (inv_mix_at_ok _ (p + 1) (g (p + 1)%nat)) by (rewrite ?set_nth_length, ?nth_set_nth_ne by lia; try apply H; lia). cbn [bind].
    rewrite (inv_mix_at_ok _ (p + 2) (g (p + 2)%nat)) by (rewrite ?set_nth_length, ?nth_set_nth_ne by lia; try apply H; lia). cbn [bind].
    rewrite (inv_mix_at_ok _ (p + 3) (g (p + 3)%nat)) by (rewrite ?set_nth_length, ?nth_set_nth_ne by lia; try apply H; lia). cbn [bind].
    set (rk4 := set_nth (set_nth (set_nth (set_nth rk p (g p)) (p + 1) (g (p + 1)%nat)) (p + 2) (g (p + 2)%nat)) (p + 3) (g (p + 3)%nat)).
    assert (L4 : length rk4 = length rk) by (unfold rk4; rewrite !set_nth_length; reflexivity).
    assert (N4 : forall j, nth j rk4 0 = if (Nat.leb p j && Nat.ltb j (p + 4))%bool then g j else nth j rk 0).
    { intro j. unfold rk4. destruct (Nat.eq_dec j (p + 3)) as [->|N3]; [rewrite nth_set_nth_eq by (rewrite !set_nth_length; lia); replace (Nat.leb p (p + 3)) with true by (symmetry; apply Nat.leb_le; lia); replace (Nat.ltb (p + 3) (p + 4)) with true by (symmetry; apply Nat.ltb_lt; lia); reflexivity|]. rewrite nth_set_nth_ne by auto.
      destruct (Nat.eq_dec j (p + 2)) as [->|N2]; [rewrite nth_set_nth_eq by (rewrite !set_nth_length; lia); replace (Nat.leb p (p + 2)) with true by (symmetry; apply Nat.leb_le; lia); replace (Nat.ltb (p + 2) (p + 4)) with true by (symmetry; apply Nat.ltb_lt; lia); reflexivity|]. rewrite nth_set_nth_ne by auto.
      destruct (Nat.eq_dec j (p + 1)) as [->|N1]; [rewrite nth_set_nth_eq by (rewrite !set_nth_length; lia); replace (Nat.leb p (p + 1)) with true by (symmetry; apply Nat.leb_le; lia); replace (Nat.ltb (p + 1) (p + 4)) with true by (symmetry; apply Nat.ltb_lt; lia); reflexivity|]. rewrite nth_set_nth_ne by auto.
      destruct (Nat.eq_dec j p) as [->|N0]; [rewrite nth_set_nth_eq by lia; replace (Nat.leb p p) with true by (symmetry; apply Nat.leb_le; lia); replace (Nat.ltb p (p + 4)) with true by (symmetry; apply Nat.ltb_lt; lia); reflexivity|]. rewrite nth_set_nth_ne by auto.
      destruct (Nat.leb_spec p j), (Nat.ltb_spec j (p + 4)); cbn [andb]; try reflexivity. lia. }
    clearbody rk4. destruct (IH rk4 (p + 4)%nat ltac:(lia)) as (rk' & E & L' & N').
    + intros j J. rewrite N4. replace (Nat.ltb j (p + 4)) with false by (symmetry; apply Nat.ltb_ge; lia). rewrite andb_false_r. apply H. lia.
    + exists rk'. split; [exact E|]. split; [lia|]. intro j. rewrite N', N4.
      destruct (Nat.leb_spec (p + 4) j), (Nat.ltb_spec j (p + 4 + 4 * n)), (Nat.leb_spec p j), (Nat.ltb_spec j (p + 4 * Datatypes.S n)), (Nat.ltb_spec j (p + 4)); cbn [andb]; try reflexivity; lia.
Qed.

Definition dec_keys (Nr : nat) (rk : list N) : Prop := length rk = (4 * Nr + 4)%nat /\ forall r, (r <= Nr)%nat -> holds rk (4 * Z.of_nat r) (dkey W Nr r).
Lemma key_setup_dec_ok : forall Nk key rk, (Nk = 4 \/ Nk = 6 \/ Nk = 8)%nat -> KeySchedule Nk key W -> length key = (4 * Nk)%nat -> (forall x, In x key -> byte x) ->
  length rk = (4 * (Nk + 6) + 4)%nat ->
  exists rk', key_setup_dec rk key (32 * N.of_nat Nk) = Ok ((Nk + 6)%nat, rk') /\ dec_keys (Nk + 6) rk'.
Proof.
  intros Nk key rk NK S KL KB RL. unfold key_setup_dec. destruct (key_setup_ok Nk key rk NK S KL KB RL) as (rk1 & E1 & G1). rewrite E1. cbn [bind].
  set (f := fun j => (4 * (Nk + 6 - j / 4) + j mod 4)%nat).
  assert (RV : reverse_keys (Nk + 6 + 1) rk1 0 (4 * Z.of_nat (Nk + 6)) = Ok (map (fun j => pack (W (f j))) (seq 0 (4 * (Nk + 6) + 4)))).
  { rewrite (good_map _ _ G1). unfold f. destruct NK as [->|[->| ->]]; [exact (reverse10 (fun j => pack (W j)))|exact (reverse12 (fun j => pack (W j)))|exact (reverse14 (fun j => pack (W j)))]. }
  rewrite RV. cbn [bind]. clear E1 G1 RV.
  set (rk2 := map (fun j => pack (W (f j))) (seq 0 (4 * (Nk + 6) + 4))).
  assert (L2 : length rk2 = (4 * (Nk + 6) + 4)%nat) by (unfold rk2; rewrite map_length, seq_length; reflexivity).
  assert (N2 : forall j, (j < 4 * (Nk + 6) + 4)%nat -> nth j rk2 0 = pack (W (f j))).
  { intros j J. unfold rk2. rewrite (nth_indep _ 0 (pack (W (f 0%nat)))) by (rewrite map_length, seq_length; exact J). rewrite (map_nth (fun j => pack (W (f j)))), seq_nth by exact J. reflexivity. }
  destruct (inv_mix_keys_ok (fun j => pack (mix_col 14 11 13 9 (W (f j)))) (Nk + 6 - 1) rk2 4 ltac:(lia)) as (rk3 & E3 & L3 & N3).
  - intros j J. rewrite N2 by lia. apply inv_mix_word_ok, WB.
  - change (Z.of_nat 4) with 4%Z in E3. rewrite E3. cbn [bind]. exists rk3. split; [reflexivity|]. split; [lia|]. intros r R.
    assert (FJ : forall c, (c < 4)%nat -> f (4 * r + c)%nat = (4 * (Nk + 6 - r) + c)%nat).
    { intros c C. unfold f. replace ((4 * r + c) / 4)%nat with r by (apply Nat.div_unique with (r := c); lia). replace ((4 * r + c) mod 4)%nat with c by (apply Nat.mod_unique with (q := r); lia). reflexivity. }
    assert (AG : forall c, (c < 4)%nat -> aget rk3 (4 * Z.of_nat r + Z.of_nat c)%Z = Ok (pack (if (Nat.eqb r 0 || Nat.eqb r (Nk + 6))%bool then W (4 * (Nk + 6 - r) + c)%nat else mix_col 14 11 13 9 (W (4 * (Nk + 6 - r) + c)%nat)))).
    { intros c C. rewrite (aget_ok rk3 _ 0) by lia. replace (Z.to_nat (4 * Z.of_nat r + Z.of_nat c)) with (4 * r + c)%nat by lia. rewrite N3.
      destruct (Nat.eqb_spec r 0) as [->|R0].
      - cbn [orb]. replace (Nat.leb 4 (4 * 0 + c)) with false by (symmetry; apply Nat.leb_gt; lia). cbn [andb]. rewrite N2 by lia. rewrite FJ by exact C. reflexivity.
      - cbn [orb]. destruct (Nat.eqb_spec r (Nk + 6)) as [->|R1].
        + replace (Nat.ltb (4 * (Nk + 6) + c) (4 + 4 * (Nk + 6 - 1))) with false by (symmetry; apply Nat.ltb_ge; lia). rewrite andb_false_r. rewrite N2 by lia. rewrite FJ by exact C. reflexivity.
        + replace (Nat.ltb (4 * r + c) (4 + 4 * (Nk + 6 - 1))) with true by (symmetry; apply Nat.ltb_lt; lia). replace (Nat.leb 4 (4 * r + c)) with true by (symmetry; apply Nat.leb_le; lia). cbn [andb]. rewrite FJ by exact C. reflexivity. }
    pose proof (AG 0%nat ltac:(lia)) as A0. pose proof (AG 1%nat ltac:(lia)) as A1. pose proof (AG 2%nat ltac:(lia)) as A2. pose proof (AG 3%nat ltac:(lia)) as A3.
    rewrite Z.add_0_r, Nat.add_0_r in A0. change (Z.of_nat 1) with 1%Z in A1. change (Z.of_nat 2) with 2%Z in A2. change (Z.of_nat 3) with 3%Z in A3.
    unfold dkey. destruct (Nat.eqb r 0 || Nat.eqb r (Nk + 6))%bool; unfold round_key, inv_mix_columns, st_map, holds; auto.
Qed.
Lemma decrypt_ok : forall Nk rk ct, (Nk = 4 \/ Nk = 6 \/ Nk = 8)%nat -> dec_keys (Nk + 6) rk -> length ct = 16%nat -> (forall x, In x ct -> byte x) ->
  decrypt rk (Nk + 6) ct = Ok (state_block (inv_cipher (Nk + 6) W (block_state ct))).
Proof.
  intros Nk rk ct NK [RL H] L B. unfold decrypt. rewrite load_ok by assumption. cbn [bind].
  assert (D0 : dkey W (Nk + 6) 0 = round_key W (Nk + 6)) by (unfold dkey; cbn [Nat.eqb orb]; rewrite Nat.sub_0_r; reflexivity).
  assert (D1 : dkey W (Nk + 6) (Nk + 6) = round_key W 0) by (unfold dkey; rewrite Nat.eqb_refl, orb_true_r, Nat.sub_diag; reflexivity).
  pose proof (H 0%nat ltac:(lia)) as H0. rewrite D0 in H0. change (4 * Z.of_nat 0)%Z with 0%Z in H0. rewrite (add_key_ok _ _ _ _ H0). cbn [bind].
  pose proof (block_bytes ct L B) as BB. assert (B0 : bstate (st_xor (block_state ct) (round_key W (Nk + 6)))) by (apply bstate_xor; [exact BB|apply key_bytes; exact WB]).
  assert (HM : exists m, Nat.div2 (Nk + 6) = Datatypes.S m /\ (Nk + 6 = 2 * Datatypes.S m)%nat) by (destruct NK as [->|[->| ->]]; eexists; split; reflexivity).
  destruct HM as (m & HM & HN). rewrite HM.
  pose proof (dec_loop_ok W WB (Nk + 6) rk H m (Datatypes.S (Nk + 6)) 0 _ ltac:(lia) ltac:(lia) B0) as EL.
  change (4 * Z.of_nat 0)%Z with 0%Z in EL. rewrite EL. cbn [bind].
  assert (BR : bstate (inv_rounds W (2 * m + 1) (st_xor (block_state ct) (round_key W (Nk + 6))))) by (apply inv_rounds_bytes; assumption).
  pose proof (H (Nk + 6)%nat ltac:(lia)) as HL. rewrite D1 in HL.
  rewrite (dec_last_ok rk _ _ _ BR HL). cbn [bind]. rewrite store_ok.
  - unfold inv_cipher. replace (Nk + 6 - 1)%nat with (2 * m + 1)%nat by lia. reflexivity.
  - apply bstate_xor; [apply bstate_inv_round; exact BR|apply key_bytes; exact WB].
Qed.
End Setup.
