(** The integers of the multicarry and super-duper generators. *)
From Coq Require Import NArith ZArith List Bool Reals Lra Lia.
From Flocq Require Import Core IEEE754.BinarySingleNaN.
From Verif Require Import RModel DoubleLemmas DoubleLemmas2 DoubleLemmas3 RDoubles.
Import ListNotations.
Open Scope R_scope.

(** The integer is the word or one less. *)
Lemma c_unif k a : k = MARSAGLIA_MULTICARRY \/ k = SUPER_DUPER -> (a < 2 ^ 32)%N ->
  exists u j, r_unif k [a] = Ok u /\ to_ulong (r_scale k u) = Ok j /\ (N.pred a <= j <= a)%N.
Proof.
  intros K H. destruct (word_val a H) as (F & V & R).
  replace (r_unif k [a]) with (Ok (fixup (dmul (d_of_Z (Z.of_N a)) i2_32m1))) by (destruct K as [-> | ->]; reflexivity).
  replace (r_scale k) with (fun u => dmul u (d_of_Z 4294967295)) by (destruct K as [-> | ->]; reflexivity).
  destruct (dmul_val (d_of_Z (Z.of_N a)) i2_32m1 F eq_refl) as (F1 & V1); [rewrite V, c_val; apply moderate_le; lra|].
  rewrite V, c_val in V1. generalize dependent (dmul (d_of_Z (Z.of_N a)) i2_32m1). intros x F1 E.
  destruct (d_of_Z_val 4294967295) as (F2 & V2 & _); [lia|].
  eexists. destruct (N.eq_dec a 0) as [->|Ne].
  - exists 0%N. split; [reflexivity|]. split; [|lia].
    rewrite fixup_zero by (auto; rewrite E; replace (IZR (Z.of_N 0) * _) with 0 by (cbn; lra); apply rnd_zero).
    destruct half_c as (Fc & Vc). rewrite tiny_val in Vc.
    destruct (dmul_val (dmul dhalf i2_32m1) (d_of_Z 4294967295) Fc F2) as (F3 & V3); [rewrite V2, Vc; apply moderate_le; lra|].
    rewrite V2, Vc in V3.
    assert (T : Ztrunc (B2R (dmul (dmul dhalf i2_32m1) (d_of_Z 4294967295))) = 0%Z).
    { apply trunc_between; [|lia]. rewrite V3. split; [rewrite <- (rnd_int 0) by lia; apply rnd_le; lra|].
      apply Rle_lt_trans with (rnd (B2R below1)); [apply rnd_le; rewrite below1_val; lra|]. rewrite rnd_double, below1_val. change (IZR (0 + 1)) with 1. lra. }
    rewrite to_ulong_ok by (auto; lia). rewrite T. reflexivity.
  - assert (A1 : 1 <= IZR (Z.of_N a)) by (apply (IZR_le 1); lia).
    assert (X : IZR (Z.of_N a) * (4503599628419071 * / 19342813113834066795298816) * (1 - / 9007199254740992) <= B2R x
      <= IZR (Z.of_N a) * (4503599628419071 * / 19342813113834066795298816) * (1 + / 9007199254740992)).
    { rewrite E. apply rnd_rel, small_bpow. lra. }
    clear E. exists (Z.to_N (Ztrunc (rnd (B2R x * 4294967295)))). split; [reflexivity|].
    rewrite fixup_id by (auto; lra).
    destruct (dmul_val x (d_of_Z 4294967295) F1 F2) as (F3 & V3); [rewrite V2; apply moderate_le; lra|]. rewrite V2 in V3.
    assert (L : IZR (Z.of_N a - 1) <= rnd (B2R x * 4294967295)).
    { rewrite <- (rnd_int (Z.of_N a - 1)) by lia. apply rnd_le. rewrite minus_IZR. lra. }
    assert (U : rnd (B2R x * 4294967295) <= IZR (Z.of_N a)).
    { eapply Rle_trans; [apply rnd_rel; apply small_bpow; lra|]. lra. }
    assert (P : 0 <= rnd (B2R x * 4294967295)) by (eapply Rle_trans; [|exact L]; apply (IZR_le 0); lia).
    assert (T : (Z.of_N a - 1 <= Ztrunc (rnd (B2R x * 4294967295)) <= Z.of_N a)%Z).
    { rewrite Ztrunc_floor by exact P. split; [apply Zfloor_lub; exact L|]. rewrite <- (Zfloor_IZR (Z.of_N a)). apply Zfloor_le, U. }
    split; [|lia]. rewrite <- V3. apply to_ulong_ok; [exact F3|]. rewrite V3. lia.
Qed.
