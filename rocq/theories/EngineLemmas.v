From Coq Require Import Permutation Reals Lra.
From Verif Require Import BaseLemmas EngineModel EngineSpec DoubleLemmas.
Open Scope N_scope.

Lemma iter_o_snoc : forall A (f : A -> outcome A) n a,
  iter_o (S n) f a = bind (iter_o n f a) f.
Proof.
  intros A f n. induction n; intro a.
  - cbn. destruct (f a); reflexivity.
  - change (iter_o (S (S n)) f a) with (bind (f a) (iter_o (S n) f)).
    change (iter_o (S n) f a) with (bind (f a) (iter_o n f)).
    destruct (f a); cbn [bind]; auto.
Qed.

Section E.
Variable cfg : config.
Variable res : nat -> nat -> double.
Variable ksf : list double -> double.
Variable srt : list double -> list double.
Hypothesis Hsrt : forall l, Permutation (srt l) l.
Variable Q : double -> Prop.

(** one statistic, [j], in the middle of a batch: [n] values stored *)
Definition ok1 (cut : nat) (b n j : nat) (t : stat) : Prop :=
  length (s_pv t) = cut /\
  Permutation (firstn n (s_pv t)) (map (fun c => res c j) (seq b n)).

Definition okall (cut b n : nat) (ps : N) (j0 : nat) (ts : list stat) : Prop :=
  forall j t, nth_error ts j = Some t -> ok1 cut b n (j0 + j) t /\ s_ps t = ps.

Lemma okall_cons : forall cut b n ps j0 t ts,
  okall cut b n ps j0 (t :: ts) <->
  (ok1 cut b n j0 t /\ s_ps t = ps) /\ okall cut b n ps (S j0) ts.
Proof.
  intros. split.
  - intro H. split.
    + specialize (H 0%nat t eq_refl). rewrite Nat.add_0_r in H. exact H.
    + intros j t' E. specialize (H (S j) t' E). rewrite Nat.add_succ_r in H. exact H.
  - intros [H1 H2] [|j] t' E.
    + cbn in E. inversion E; subst. rewrite Nat.add_0_r. exact H1.
    + cbn in E. specialize (H2 j t' E). rewrite Nat.add_succ_r. exact H2.
Qed.

Lemma firstn_set_nth : forall A (l : list A) n a, (n < length l)%nat ->
  firstn (S n) (set_nth l n a) = firstn n l ++ [a].
Proof.
  intros A l. induction l; intros n x L; cbn in L; [lia|].
  destruct n; cbn.
  - reflexivity.
  - f_equal. apply IHl. lia.
Qed.

Lemma store_ok : forall cut b n ps ts j0,
  (n < cut)%nat -> okall cut b n ps j0 ts ->
  exists ts', store res (b + n) j0 (N.of_nat n) ts = Ok ts' /\
    okall cut b (S n) ps j0 ts' /\ length ts' = length ts.
Proof.
  intros cut b n ps ts. induction ts as [|t ts IH]; intros j0 L H.
  - exists []. repeat split; auto; destruct j; discriminate.
  - apply okall_cons in H. destruct H as [[[Hl Hp] Hs] H].
    destruct (IH (S j0) L H) as (ts' & E & K & Len).
    cbn [store]. rewrite aset_ok by lia. cbn [bind]. rewrite E. cbn [bind].
    eexists. split; [reflexivity|]. split; [|cbn; lia].
    apply okall_cons. split; [|exact K]. split; [|exact Hs].
    split.
    + cbn [s_pv]. rewrite set_nth_length. exact Hl.
    + cbn [s_pv]. replace (Z.to_nat (Z.of_N (N.of_nat n))) with n by lia.
      rewrite firstn_set_nth by lia.
      rewrite seq_S, map_app. cbn [map].
      apply Permutation_app; [exact Hp|reflexivity].
Qed.

Lemma rounds_ok : forall cut b ps m n ts,
  (n + m <= cut)%nat -> okall cut b n ps 0 ts ->
  exists ts', rounds res m (N.of_nat n) ((b + n)%nat, ts) = Ok ((b + (n + m))%nat, ts') /\
    okall cut b (n + m) ps 0 ts' /\ length ts' = length ts.
Proof.
  intros cut b ps m. induction m; intros n ts L H.
  - exists ts. cbn. rewrite Nat.add_0_r. auto.
  - cbn [rounds fst snd]. destruct (store_ok cut b n ps ts 0 ltac:(lia) H) as (t1 & E & K & Len).
    rewrite E. cbn [bind].
    replace (N.of_nat n + 1) with (N.of_nat (S n)) by lia.
    replace (S (b + n)) with (b + S n)%nat by lia.
    destruct (IHm (S n) t1 ltac:(lia) K) as (t2 & E2 & K2 & Len2).
    exists t2. replace (n + S m)%nat with (S n + m)%nat by lia.
    split; [exact E2|]. split; [exact K2|]. lia.
Qed.

Hypothesis Qm1 : Q dminus1.
Hypothesis Qksf : forall l, Q (ksf l).
Hypothesis Qres : forall c j, Q (res c j).

Lemma ks_call_ok : forall cut b n j t,
  ok1 cut b n j t -> (n <= cut)%nat -> N.of_nat n < 2 ^ 31 ->
  exists p pv, ks_call cfg ksf srt (s_pv t) (N.of_nat n) = Ok (p, pv) /\ Q p /\
    length pv = cut /\ Permutation (firstn n pv) (map (fun c => res c j) (seq b n)).
Proof.
  intros cut b n j t [Hl Hp] L B. unfold ks_call.
  replace (2 ^ 31 <=? N.of_nat n) with false by lia.
  destruct ((N.of_nat n =? 0) && negb (c_kuiper cfg)).
  { exists dminus1, (s_pv t). auto. }
  destruct (N.eqb_spec (N.of_nat n) 1) as [E|E].
  { assert (n = 1%nat) by lia. subst n.
    destruct (s_pv t) as [|p l] eqn:Ep; [cbn in Hl; lia|].
    exists p, (p :: l). repeat split; auto.
    cbn in Hp. apply Permutation_length_1 in Hp. subst p. apply Qres. }
  replace (length (s_pv t) <? N.to_nat (N.of_nat n))%nat with false by lia.
  rewrite Nat2N.id. do 2 eexists. split; [reflexivity|].
  split; [apply Qksf|].
  assert (Ls : length (srt (firstn n (s_pv t))) = n).
  { rewrite (Permutation_length (Hsrt _)). apply firstn_length_le. lia. }
  split.
  - rewrite app_length, Ls, skipn_length. lia.
  - rewrite firstn_app, Ls, Nat.sub_diag. cbn. rewrite app_nil_r.
    rewrite firstn_all2 by lia. rewrite (Hsrt _). exact Hp.
Qed.

Lemma recount_ok : forall cut b n ps count ts j0,
  okall cut b n ps j0 ts -> (n <= cut)%nat -> N.of_nat n < 2 ^ 31 ->
  add32 ps count = N.of_nat n ->
  exists ts', recount cfg ksf srt count ts = Ok ts' /\
    okall cut b n (N.of_nat n) j0 ts' /\ length ts' = length ts /\
    forall t, In t ts' -> Q (s_ks t).
Proof.
  intros cut b n ps count ts. induction ts as [|t ts IH]; intros j0 H L B A.
  - exists []. repeat split; auto; try (destruct j; discriminate). intros t [].
  - apply okall_cons in H. destruct H as [[H1 Hs] H].
    destruct (IH (S j0) H L B A) as (ts' & E & K & Len & QQ).
    destruct (ks_call_ok cut b n j0 t H1 L B) as (p & pv & Ek & Qp & Lp & Pp).
    cbn [recount]. rewrite Hs, A, Ek. cbn [bind]. rewrite E. cbn [bind].
    eexists. split; [reflexivity|]. split; [|split].
    + apply okall_cons. split; [|exact K]. split; [|reflexivity]. split; assumption.
    + cbn. lia.
    + intros t' [<-|I]; [exact Qp|apply QQ, I].
Qed.

(** the state between std_test calls *)
Definition inv (cut b n : nat) (s : nat * list stat) : Prop :=
  fst s = (b + n)%nat /\ length (snd s) = c_nkps cfg /\ okall cut b n (N.of_nat n) 0 (snd s).

Lemma add_2_test_ok : forall cut b n count s,
  inv cut b n s -> (0 < c_nkps cfg)%nat ->
  N.of_nat n + count < 2 ^ 32 ->
  let m := N.to_nat (N.min (N.of_nat n + count) (c_xoff cfg)) in
  (n <= m)%nat -> (m <= cut)%nat -> N.of_nat m < 2 ^ 31 ->
  exists s', add_2_test cfg res ksf srt count s = Ok s' /\ inv cut b m s' /\
    forall t, In t (snd s') -> Q (s_ks t).
Proof.
  intros cut b n count [c ts] (Hc & Hl & Hk) P B m Lm Lc Bm. cbn [fst snd] in *.
  unfold add_2_test. cbn [snd].
  destruct ts as [|t0 ts0] eqn:Ets; [cbn in Hl; lia|]. rewrite <- Ets in *.
  assert (E0 : s_ps t0 = N.of_nat n).
  { apply (Hk 0%nat t0). rewrite Ets. reflexivity. }
  rewrite E0.
  assert (Em : (if c_xoff cfg <? add32 (N.of_nat n) count then c_xoff cfg
                else add32 (N.of_nat n) count) = N.of_nat m).
  { unfold add32. rewrite w32_small by exact B. subst m. rewrite N2Nat.id.
    destruct (N.ltb_spec (c_xoff cfg) (N.of_nat n + count)); lia. }
  cbv zeta. rewrite Em.
  replace (N.to_nat (N.of_nat m - N.of_nat n)) with (m - n)%nat by lia.
  subst c.
  destruct (rounds_ok cut b (N.of_nat n) (m - n) n ts ltac:(lia) Hk) as (t1 & E1 & K1 & L1).
  rewrite E1. cbn [bind]. replace (n + (m - n))%nat with m in * by lia.
  destruct (recount_ok cut b m (N.of_nat n) (sub32 (N.of_nat m) (N.of_nat n)) t1 0 K1 Lc Bm)
    as (t2 & E2 & K2 & L2 & Q2).
  { rewrite sub32_small by lia. unfold add32. rewrite w32_small by lia. lia. }
  rewrite E2. cbn [bind]. eexists. split; [reflexivity|]. split; [|exact Q2].
  split; [reflexivity|]. split; [cbn [snd]; lia|exact K2].
Qed.

Lemma pmax_from : forall ts m, disnan m = false -> (0 <= val m)%R ->
  let p := fold_left (fun m t => if dgt (s_ks t) m then s_ks t else m) ts m in
  disnan p = false /\ (val m <= val p)%R /\
  ((exists t, In t ts /\ dgt (s_ks t) dzero = true) -> (0 < val p)%R) /\
  ((forall t, In t ts -> dgt (s_ks t) dzero = false) -> p = m).
Proof.
  induction ts as [|t ts IH]; intros m N V; cbn [fold_left].
  - repeat split; auto; try lra. intros (t & [] & _).
  - destruct (dgt (s_ks t) m) eqn:D.
    + unfold dgt in D. destruct (dlt_nan _ _ D) as [_ Nt].
      change (dlt m (s_ks t) = true) in D. apply dlt_val in D; auto.
      destruct (IH (s_ks t) Nt ltac:(lra)) as (I1 & I2 & I3 & I4).
      repeat split; auto; try lra.
      intro F. specialize (F t (or_introl eq_refl)).
      assert (X : dlt dzero (s_ks t) = true) by (apply dlt_val; auto; rewrite val_zero; lra).
      unfold dgt in F. unfold dlt in X. congruence.
    + destruct (IH m N V) as (I1 & I2 & I3 & I4). repeat split; auto.
      * intros (t' & [<-|I] & G).
        -- unfold dgt in G. destruct (dlt_nan _ _ G) as [_ Nt].
           assert (~ (val m < val (s_ks t))%R).
           { intro X. apply dlt_val in X; auto. unfold dlt in X. unfold dgt in D. congruence. }
           change (dlt dzero (s_ks t) = true) in G. apply dlt_val in G; auto.
           rewrite val_zero in G. lra.
        -- apply I3. eauto.
      * intro F. apply I4. intros t' I. apply F. right. exact I.
Qed.

Lemma pmax_positive : forall ts, some_positive ts -> deq (pmax ts) dzero = false.
Proof.
  intros ts H. unfold pmax. destruct (pmax_from ts dzero eq_refl) as (I1 & I2 & I3 & I4).
  { rewrite val_zero; lra. }
  specialize (I3 H). destruct (deq _ dzero) eqn:E; auto.
  apply deq_val in E; auto. rewrite val_zero in E. lra.
Qed.

Lemma pmax_none : forall ts, ~ some_positive ts -> deq (pmax ts) dzero = true.
Proof.
  intros ts H. unfold pmax. destruct (pmax_from ts dzero eq_refl) as (I1 & I2 & I3 & I4).
  { rewrite val_zero; lra. }
  rewrite I4; [reflexivity|].
  intros t I. destruct (dgt (s_ks t) dzero) eqn:E; auto. exfalso. apply H. exists t. auto.
Qed.

Lemma some_positive_dec : forall ts, some_positive ts \/ ~ some_positive ts.
Proof.
  induction ts as [|t ts IH].
  - right. intros (t & [] & _).
  - destruct (dgt (s_ks t) dzero) eqn:E.
    + left. exists t. split; [left; reflexivity|exact E].
    + destruct IH as [(t' & I & G)|IH].
      * left. exists t'. split; [right; exact I|exact G].
      * right. intros (t' & [<-|I] & G); [congruence|]. apply IH. exists t'. auto.
Qed.

(** a further call *)
Lemma std_test_add : forall cut b n s,
  inv cut b n s -> some_positive (snd s) -> (0 < c_nkps cfg)%nat ->
  N.of_nat n + c_xstep cfg < 2 ^ 32 -> N.of_nat n <= c_xoff cfg ->
  c_xoff cfg < 2 ^ 31 -> (N.to_nat (c_xoff cfg) <= cut)%nat ->
  exists s', std_test cfg res ksf srt s = Ok s' /\
    inv cut b (N.to_nat (N.min (N.of_nat n + c_xstep cfg) (c_xoff cfg))) s' /\
    forall t, In t (snd s') -> Q (s_ks t).
Proof.
  intros cut b n s I SP P B1 B2 B3 B4. unfold std_test.
  destruct (snd s) as [|t0 ts0] eqn:Ets.
  { destruct I as (_ & Hl & _). rewrite Ets in Hl. cbn in Hl. lia. }
  rewrite <- Ets in *. rewrite pmax_positive by exact SP.
  apply (add_2_test_ok cut b n (c_xstep cfg) s I P B1); lia.
Qed.

Lemma okall_reset : forall cut b n ps ts j0 b', okall cut b n ps j0 ts ->
  okall cut b' 0 0 j0 (map (fun t => {| s_ps := 0; s_ks := s_ks t; s_pv := s_pv t |}) ts).
Proof.
  intros cut b n ps ts. induction ts as [|t ts IH]; intros j0 b' H.
  - intros [|j] t; discriminate.
  - apply okall_cons in H. destruct H as [[[Hl _] _] H]. cbn [map].
    apply okall_cons. split; [|apply IH; exact H]. split; [|reflexivity]. split; [exact Hl|constructor].
Qed.

(** a call that takes itself for the first one *)
Lemma std_test_restart : forall cut b n ps c ts,
  length ts = c_nkps cfg -> okall cut b n ps 0 ts ->
  ~ some_positive ts -> (0 < c_nkps cfg)%nat ->
  ps < 2 ^ 32 -> N.min ps (c_xoff cfg) < 2 ^ 31 ->
  (N.to_nat (N.min ps (c_xoff cfg)) <= cut)%nat ->
  exists s', std_test cfg res ksf srt (c, ts) = Ok s' /\
    inv cut c (N.to_nat (N.min ps (c_xoff cfg))) s' /\
    forall t, In t (snd s') -> Q (s_ks t).
Proof.
  intros cut b n ps c ts Hl Hk SP P B1 B2 B3. unfold std_test. cbn [snd fst].
  destruct ts as [|t0 ts0] eqn:Ets; [cbn in Hl; lia|]. rewrite <- Ets in *.
  rewrite pmax_none by exact SP.
  assert (E0 : s_ps t0 = ps).
  { apply (Hk 0%nat t0). rewrite Ets. reflexivity. }
  rewrite E0.
  destruct (add_2_test_ok cut c 0 ps
    (c, map (fun t => {| s_ps := 0; s_ks := s_ks t; s_pv := s_pv t |}) ts)) as (s' & E & I & q).
  - split; [cbn; lia|]. split; [cbn [snd]; rewrite map_length; exact Hl|].
    cbn [snd]. eapply okall_reset; eauto.
  - exact P.
  - lia.
  - lia.
  - rewrite N.add_0_l. exact B3.
  - rewrite N.add_0_l, N2Nat.id. exact B2.
  - exists s'. rewrite N.add_0_l in I. auto.
Qed.

Lemma nth_error_repeat' : forall A (a : A) n j t, nth_error (repeat a n) j = Some t -> t = a.
Proof. intros A a n j t H. apply nth_error_In in H. apply repeat_spec in H. exact H. Qed.

Lemma create_ok : let ps := wanted cfg in
  okall (N.to_nat (pcutoff cfg ps)) 0 0 ps 0 (create_test cfg) /\
  length (create_test cfg) = c_nkps cfg /\ ~ some_positive (create_test cfg).
Proof.
  cbv zeta. split; [|split].
  - intros j t E. unfold create_test in E. apply nth_error_repeat' in E. subst t.
    repeat split; auto. cbn. apply repeat_length.
  - apply repeat_length.
  - intros (t & I & G). apply repeat_spec in I. subst t. cbn in G. discriminate.
Qed.

Lemma pcutoff_ge : wanted cfg <= pcutoff cfg (wanted cfg).
Proof. unfold pcutoff. destruct (c_strategy cfg =? 0); cbn; [lia|]. destruct (N.ltb_spec (wanted cfg) (c_xoff cfg)); lia. Qed.
Lemma pcutoff_ge_xoff : c_strategy cfg <> 0 -> c_xoff cfg <= pcutoff cfg (wanted cfg).
Proof. intro S. unfold pcutoff. destruct (N.eqb_spec (c_strategy cfg) 0); [lia|]. cbn. destruct (N.ltb_spec (wanted cfg) (c_xoff cfg)); lia. Qed.

Notation cut := (N.to_nat (pcutoff cfg (wanted cfg))).

Lemma first_call : sane cfg ->
  exists s', std_test cfg res ksf srt (0%nat, create_test cfg) = Ok s' /\
    inv cut 0 (N.to_nat (samples_after cfg 0)) s' /\
    forall t, In t (snd s') -> Q (s_ks t).
Proof.
  intros (P & W & X & O). destruct create_ok as (H1 & H2 & H3). pose proof pcutoff_ge.
  destruct (std_test_restart cut 0 0 (wanted cfg) 0 (create_test cfg) H2 H1 H3 P) as (s' & E & I & q); try lia.
  exists s'. unfold samples_after. rewrite N.mul_0_l, N.add_0_r. auto.
Qed.

Lemma samples_S : forall k,
  N.min (samples_after cfg k + c_xstep cfg) (c_xoff cfg) = samples_after cfg (S k).
Proof. intro k. unfold samples_after. lia. Qed.

Lemma next_call : forall k s, sane cfg -> c_strategy cfg <> 0 ->
  inv cut 0 (N.to_nat (samples_after cfg k)) s -> some_positive (snd s) ->
  exists s', std_test cfg res ksf srt s = Ok s' /\
    inv cut 0 (N.to_nat (samples_after cfg (S k))) s' /\
    forall t, In t (snd s') -> Q (s_ks t).
Proof.
  intros k s (P & W & X & O) S I SP. pose proof (pcutoff_ge_xoff S).
  assert (samples_after cfg k <= c_xoff cfg) by (unfold samples_after; lia).
  destruct (std_test_add cut 0 _ s I SP P) as (s' & E & I' & q); try lia.
  exists s'. rewrite N2Nat.id, samples_S in I'. auto.
Qed.

Lemma inv_holds : forall b n s, inv cut b (N.to_nat n) s -> holds_exactly res b n (snd s).
Proof.
  intros b n s (_ & _ & K) j t E. destruct (K j t E) as ((_ & Hp) & Hs).
  rewrite N2Nat.id in Hs. auto.
Qed.

(** C16 *)
Lemma calls_ok : forall k, sane cfg -> (c_strategy cfg <> 0 \/ k = 0%nat) ->
  (forall i s, (1 <= i <= k)%nat ->
     iter_o i (std_test cfg res ksf srt) (0%nat, create_test cfg) = Ok s -> some_positive (snd s)) ->
  exists s, iter_o (S k) (std_test cfg res ksf srt) (0%nat, create_test cfg) = Ok s /\
    inv cut 0 (N.to_nat (samples_after cfg k)) s.
Proof.
  intros k Sn. induction k; intros St Pos.
  - destruct (first_call Sn) as (s & E & I & _). exists s. cbn [iter_o]. rewrite E. auto.
  - destruct IHk as (s & E & I).
    + destruct St as [|]; [auto|discriminate].
    + intros i s' Hi. apply Pos. lia.
    + rewrite iter_o_snoc, E. cbn [bind].
      destruct (next_call k s Sn) as (s' & E' & I' & _); auto.
      { destruct St; [auto|discriminate]. }
      { apply (Pos (S k)); auto. lia. }
      exists s'. auto.
Qed.

End E.
