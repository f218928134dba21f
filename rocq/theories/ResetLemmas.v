(** Proofs about reset_bit_buffers: two runs on generators that agree from
    their current positions on stay in lockstep. *)
From Verif Require Export StreamModel BaseLemmas.
Open Scope N_scope.

Section Lockstep.
  Variables g1 g2 : N -> N.
  Variable w : N.
  Variables p1 p2 : N.
  Hypothesis Hg : forall i, g1 (p1 + i) = g2 (p2 + i).

  (** Same outcome, with related results. *)
  Definition orel {A B} (R : A -> B -> Prop) (x : outcome A) (y : outcome B) : Prop :=
    match x, y with
    | Ok a, Ok b => R a b
    | Exit c, Exit d => c = d
    | UB r, UB q => r = q
    | OutOfFuel, OutOfFuel => True
    | _, _ => False
    end.
  Lemma orel_bind {A B C D} (R : A -> B -> Prop) (Q : C -> D -> Prop) x y f h :
    orel R x y -> (forall a b, R a b -> orel Q (f a) (h b)) -> orel Q (bind x f) (bind y h).
  Proof. destruct x, y; cbn; try contradiction; auto. Qed.
  Lemma orel_refl {A} (x : outcome A) : orel eq x x.
  Proof. destruct x; cbn; auto. Qed.

  Definition urel (a b : ustate) : Prop :=
    exists k, gpos a = p1 + k /\ gpos b = p2 + k /\
      bits_rand0 a = bits_rand0 b /\ bits_rand1 a = bits_rand1 b /\ bleft a = bleft b.

  Lemma uint_fill_lock fuel : forall a b, urel a b ->
    orel urel (uint_fill g1 w fuel a) (uint_fill g2 w fuel b).
  Proof.
    induction fuel as [|fuel IH]; intros [a0 a1 al ap] [b0 b1 bl bp] (k & E1 & E2 & E3 & E4 & E5);
      cbn in *; subst; [exact I|].
    destruct (_ <? _); [|cbn; exists k; auto].
    rewrite Hg. apply (orel_bind eq); [apply orel_refl|]. intros v ? <-.
    apply IH. exists (k + 1). cbn. repeat split; auto; lia.
  Qed.

  Lemma get_uint_rand_lock a b : urel a b ->
    orel (fun x y => fst x = fst y /\ urel (snd x) (snd y))
      (get_uint_rand g1 w a) (get_uint_rand g2 w b).
  Proof.
    intros Hab. unfold get_uint_rand.
    set (a' := if (bleft a =? -1)%Z then _ else a). set (b' := if (bleft b =? -1)%Z then _ else b).
    assert (H' : urel a' b').
    { destruct Hab as (k & E1 & E2 & E3 & E4 & E5). unfold a', b'. rewrite E5.
      destruct (bleft b =? -1)%Z.
      - exists (k + 1). cbn [gpos bits_rand0 bits_rand1 bleft]. rewrite E1, E2, Hg.
        repeat split; auto; lia.
      - exists k. auto. }
    clearbody a' b'. clear Hab a b.
    apply (orel_bind urel); [apply uint_fill_lock; auto|].
    intros [x0 x1 xl xp] [y0 y1 yl yp] (k & E1 & E2 & E3 & E4 & E5). cbn in *. subst.
    rewrite Hg. apply (orel_bind eq); [apply orel_refl|]. intros r ? <-.
    destruct (_ =? _).
    - cbn. split; auto. exists (k + 1). cbn. repeat split; auto; lia.
    - apply (orel_bind eq); [apply orel_refl|]. intros v ? <-.
      cbn. split; auto. exists (k + 1). cbn. repeat split; auto; lia.
  Qed.

  Lemma buf_fill_lock n : forall a b buf, urel a b ->
    orel (fun x y => urel (fst x) (fst y) /\ snd x = snd y)
      (buf_fill g1 w n a buf) (buf_fill g2 w n b buf).
  Proof.
    induction n as [|n IH]; intros a b buf Hab; cbn [buf_fill]; [cbn; auto|].
    apply (orel_bind (fun x y => fst x = fst y /\ urel (snd x) (snd y)));
      [apply get_uint_rand_lock; auto|].
    intros [v a'] [v' b'] [E H]. cbn in E, H. subst v'.
    apply (orel_bind eq); [apply orel_refl|]. intros buf' ? <-. apply IH; auto.
  Qed.
  Lemma backfill_lock fuel : forall a b buf ic br, urel a b ->
    orel (fun x y => urel (fst (fst x)) (fst (fst y)) /\ snd (fst x) = snd (fst y) /\ snd x = snd y)
      (backfill g1 w fuel a buf ic br) (backfill g2 w fuel b buf ic br).
  Proof.
    induction fuel as [|fuel IH]; intros a b buf ic br Hab; cbn [backfill]; [cbn; auto|].
    destruct (_ =? _)%Z; [cbn; auto|].
    apply (orel_bind (fun x y => fst x = fst y /\ urel (snd x) (snd y)));
      [apply get_uint_rand_lock; auto|].
    intros [v a'] [v' b'] [E H]. cbn in E, H. subst v'.
    apply (orel_bind eq); [apply orel_refl|]. intros buf' ? <-. apply IH; auto.
  Qed.

  Definition brel (a b : bstate) : Prop :=
    urel (bu a) (bu b) /\ randbuf a = randbuf b /\ brindex a = brindex b /\
    iclear a = iclear b /\ bitindex a = bitindex b.

  Lemma get_rand_bits_lock rsize nbits a b : brel a b ->
    orel (fun x y => fst x = fst y /\ brel (snd x) (snd y))
      (get_rand_bits g1 w rsize nbits a) (get_rand_bits g2 w rsize nbits b).
  Proof.
    intros Hab. unfold get_rand_bits.
    destruct (nbits =? 0); [cbn; auto|]. destruct (128 <? nbits); [cbn; auto|].
    destruct (_ <? nbits); [cbn; auto|].
    apply (orel_bind brel).
    { destruct Hab as (H1 & H2 & H3 & H4 & H5). rewrite H3, H2. destruct (_ =? _)%Z; [|cbn; split; auto].
      apply (orel_bind (fun x y => urel (fst x) (fst y) /\ snd x = snd y));
        [apply buf_fill_lock; auto|].
      intros [u1 b1] [u2 b2] [E H]. cbn in E, H. subst. cbn. split; auto. }
    clear a b Hab. intros [a1 a2 a3 a4 a5] [b1 b2 b3 b4 b5] (H1 & H2 & H3 & H4 & H5).
    cbn in H1, H2, H3, H4, H5. subst. cbn [StreamModel.bu randbuf brindex iclear bitindex].
    cbv zeta. set (q := if (b5 - _ <? 0)%Z then _ else _). destruct q as [br bi].
    apply (orel_bind eq); [apply orel_refl|]. intros out ? <-.
    apply (orel_bind (fun x y => urel (fst (fst x)) (fst (fst y)) /\
              snd (fst x) = snd (fst y) /\ snd x = snd y)); [apply backfill_lock; auto|].
    intros [[u1 c1] i1] [[u2 c2] i2] (E1 & E2 & E3). cbn in E1, E2, E3. subst.
    destruct (24 <? rsize); cbn; [auto|]. split; auto. split; auto.
  Qed.

  Lemma run_calls_lock cs : forall a b, brel a b ->
    run_calls g1 w cs a = run_calls g2 w cs b.
  Proof.
    induction cs as [|[|rsize nbits] cs IH]; intros a b Hab; cbn [run_calls]; [reflexivity| |].
    - destruct Hab as (H1 & H2 & H3 & H4 & H5).
      pose proof (get_uint_rand_lock _ _ H1) as L. rewrite H2, H3, H4, H5.
      destruct (get_uint_rand g1 w (bu a)) as [[v u]| | |], (get_uint_rand g2 w (bu b)) as [[v' u']| | |];
        cbn in L; try contradiction; cbn [bind]; try congruence.
      destruct L as [<- L]. rewrite (IH _ (mkB u' (randbuf b) (brindex b) (iclear b) (bitindex b)));
        [reflexivity|]. repeat split; auto.
    - pose proof (get_rand_bits_lock rsize nbits _ _ Hab) as L.
      destruct (get_rand_bits g1 w rsize nbits a) as [[v u]| | |],
               (get_rand_bits g2 w rsize nbits b) as [[v' u']| | |];
        cbn in L; try contradiction; cbn [bind]; try congruence.
      destruct L as [<- L]. rewrite (IH _ _ L). reflexivity.
  Qed.
End Lockstep.

Lemma reset_reproducible g1 g2 w s1 s2 cs :
  (forall i, g1 (gpos (bu s1) + i) = g2 (gpos (bu s2) + i)) ->
  run_calls g1 w cs (reset_bit_buffers s1) = run_calls g2 w cs (reset_bit_buffers s2).
Proof.
  intros H. apply (run_calls_lock g1 g2 w _ _ H). unfold brel, urel, reset_bit_buffers. cbn.
  split; auto. exists 0. rewrite !N.add_0_r. auto.
Qed.
