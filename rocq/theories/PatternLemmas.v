(** Proofs about get_rand_pattern. *)
From Verif Require Export PatternModel BaseLemmas.
Open Scope N_scope.

(** number of bits asked for *)
Fixpoint asked (p : list Z) : N :=
  match p with [] => 0 | x :: r => Z.to_N x + asked r end.

Lemma pattern_scan_spec p : forall pre nb fuel rest,
  (forall x, In x p -> x <> 0%Z /\ (x <= 32)%Z) -> nb + asked p < 2 ^ 32 ->
  (length p < fuel)%nat ->
  pattern_scan fuel (pre ++ p ++ 0%Z :: rest) (length pre) nb
    = Ok ((length pre + length p)%nat, nb + asked p).
Proof.
  induction p as [|x p IH]; intros pre nb fuel rest Hp Hb Hf; (destruct fuel as [|fuel]; [cbn in Hf; lia|]);
    cbn [pattern_scan].
  - rewrite (aget_ok _ _ 0%Z) by (rewrite ?app_length; cbn [length app]; lia).
    rewrite Nat2Z.id, app_nth2, Nat.sub_diag by lia. cbn. f_equal. f_equal; lia.
  - rewrite (aget_ok _ _ 0%Z) by (rewrite ?app_length; cbn [length app]; lia).
    rewrite Nat2Z.id, app_nth2, Nat.sub_diag by lia. cbn [app nth bind].
    destruct (Hp x (or_introl eq_refl)) as [H0 H32]. cbn [asked length] in *.
    destruct (Z.eqb_spec x 0); [lia|]. destruct (Z.ltb_spec 32 x); [lia|]. cbv zeta.
    replace (if (0 <? x)%Z then w32 (nb + Z.to_N x) else nb) with (nb + Z.to_N x).
    2:{ destruct (Z.ltb_spec 0 x); [rewrite w32_small; lia|]. destruct x; cbn; lia. }
    specialize (IH (pre ++ [x]) (nb + Z.to_N x) fuel rest).
    rewrite <- app_assoc, app_length in IH. cbn [app length] in IH.
    rewrite Nat.add_1_r in IH. rewrite IH; [f_equal; f_equal; lia| |lia|lia].
    intros y Hy. apply Hp. right. auto.
Qed.

Lemma get_rand_pattern_spec rsize p rest :
  (forall x, In x p -> x <> 0%Z /\ (x <= 32)%Z) -> asked p < 2 ^ 32 -> rsize < 2 ^ 29 ->
  get_rand_pattern rsize (p ++ 0%Z :: rest)
    = if (asked p =? 0) || (128 <? asked p) || (rsize * 8 <? asked p)
      then Ok (repeat 0 (N.to_nat rsize)) else Exit 0.
Proof.
  intros Hp Hb Hr. unfold get_rand_pattern.
  pose proof (pattern_scan_spec p [] 0 (S (length (p ++ 0%Z :: rest))) rest Hp Hb) as E.
  cbn [app length] in E. rewrite E by (rewrite app_length; cbn; lia). cbn [bind]. cbv zeta.
  rewrite N.add_0_l, w32_small by lia.
  destruct (asked p =? 0); [reflexivity|]. destruct (128 <? asked p); [reflexivity|].
  destruct (rsize * 8 <? asked p); [reflexivity|]. cbn [orb].
  rewrite (aget_ok _ _ 0%Z) by (rewrite ?app_length; cbn [length]; lia).
  rewrite Nat2Z.id, app_nth2 by lia. cbn [Nat.add]. rewrite Nat.sub_diag. reflexivity.
Qed.
