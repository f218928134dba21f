From Coq Require Import Permutation Reals Lra.
From Verif Require Import BaseLemmas EngineModel EngineSpec DoubleLemmas EngineLemmas.
Open Scope N_scope.

Definition nn (p : double) : Prop := disnan p = false.

Lemma tail_props : forall p, nn p -> nn (tail p) /\ (val (tail p) <= val dhalf)%R /\
  ((val p <= 0)%R -> (val (tail p) <= 0)%R).
Proof.
  intros p N. destruct (tail_bounds p N) as (A & B & C). rewrite val_half. auto.
Qed.

Lemma smallest_from : forall ts m, (forall t, In t ts -> nn (s_ks t)) -> nn m ->
  let sp := fold_left (fun m t => if dlt (tail (s_ks t)) m then tail (s_ks t) else m) ts m in
  nn sp /\ (val sp <= val m)%R /\
  (forall t, In t ts -> (val sp <= val (tail (s_ks t)))%R) /\
  (sp = m \/ exists t, In t ts /\ sp = tail (s_ks t)).
Proof.
  induction ts as [|t ts IH]; intros m N Nm; cbn [fold_left].
  - repeat split; auto; try lra. intros t [].
  - assert (Nt : nn (tail (s_ks t))) by (apply tail_props, N; left; reflexivity).
    assert (N' : forall t, In t ts -> nn (s_ks t)) by (intros; apply N; right; auto).
    destruct (dlt (tail (s_ks t)) m) eqn:D.
    + apply dlt_val in D; auto.
      destruct (IH (tail (s_ks t)) N' Nt) as (I1 & I2 & I3 & I4).
      split; [exact I1|]. split; [lra|]. split.
      * intros t' [<-|I]; auto.
      * right. destruct I4 as [E|(t' & I & E)]; [exists t|exists t']; split; auto; [left|right]; auto.
    + assert (~ (val (tail (s_ks t)) < val m)%R).
      { intro X. apply dlt_val in X; auto. congruence. }
      destruct (IH m N' Nm) as (I1 & I2 & I3 & I4).
      split; [exact I1|]. split; [lra|]. split.
      * intros t' [<-|I]; auto. lra.
      * destruct I4 as [E|(t' & I & E)]; [left; exact E|right; exists t'; split; auto; right; auto].
Qed.

Lemma failed_iff : forall ts xf, (forall t, In t ts -> nn (s_ks t)) -> ts <> [] ->
  (dlt (smallest_p ts) xf = true <-> exists t, In t ts /\ dlt (tail (s_ks t)) xf = true).
Proof.
  intros ts xf N NE. destruct (smallest_from ts dhalf N eq_refl) as (I1 & I2 & I3 & I4).
  fold (smallest_p ts) in *. split.
  - intro D. destruct (dlt_nan _ _ D) as [_ Nx]. apply dlt_val in D; auto.
    destruct I4 as [E|(t & I & E)].
    + destruct ts as [|t ts]; [congruence|]. exists t. split; [left; reflexivity|].
      destruct (tail_props (s_ks t)) as (T1 & T2 & _); [apply N; left; reflexivity|].
      apply dlt_val; auto. rewrite E in D. lra.
    + exists t. split; auto. rewrite <- E. apply dlt_val; auto.
  - intros (t & I & D). destruct (dlt_nan _ _ D) as [Nt Nx]. apply dlt_val in D; auto.
    apply dlt_val; auto. specialize (I3 t I). lra.
Qed.

Lemma passed_iff : forall ts xw, (forall t, In t ts -> nn (s_ks t)) -> ts <> [] ->
  (dge (smallest_p ts) xw = true <-> forall t, In t ts -> dge (tail (s_ks t)) xw = true).
Proof.
  intros ts xw N NE. destruct (smallest_from ts dhalf N eq_refl) as (I1 & I2 & I3 & I4).
  fold (smallest_p ts) in *. unfold dge.
  split.
  - intros D t I. change (dle xw (smallest_p ts) = true) in D. destruct (dle_nan _ _ D) as [Nx _].
    apply dle_val in D; auto. apply dle_val; auto.
    { apply tail_props, N, I. }
    specialize (I3 t I). lra.
  - intro F. destruct I4 as [E|(t & I & E)].
    + destruct ts as [|t ts]; [congruence|]. specialize (F t (or_introl eq_refl)).
      change (dle xw (tail (s_ks t)) = true) in F. destruct (dle_nan _ _ F) as [Nx Nt].
      apply dle_val in F; auto. apply dle_val; auto.
      destruct (tail_props (s_ks t)) as (T1 & T2 & _); [apply N; left; reflexivity|].
      rewrite E. lra.
    + rewrite E. apply F, I.
Qed.

Lemma need_more_stops : forall cfg ts n, (forall t, In t ts -> nn (s_ks t)) -> ts <> [] ->
  (forall t, In t ts -> s_ps t = n) ->
  (need_more cfg ts = false <-> stops cfg ts).
Proof.
  intros cfg ts n N NE PS. unfold need_more, stops.
  pose proof (failed_iff ts (c_xfail cfg) N NE) as HF.
  pose proof (passed_iff ts (c_xweak cfg) N NE) as HP.
  set (failed := exists t, In t ts /\ dlt (tail (s_ks t)) (c_xfail cfg) = true) in *.
  set (passed := forall t, In t ts -> dge (tail (s_ks t)) (c_xweak cfg) = true) in *.
  assert (HU : match ts with [] => true | t :: _ => c_xoff cfg <=? s_ps t end = true
               <-> forall t, In t ts -> c_xoff cfg <= s_ps t).
  { destruct ts as [|t ts]; [congruence|]. rewrite N.leb_le. split.
    - intros H t' I. rewrite (PS t' I). rewrite (PS t) in H by (left; reflexivity). exact H.
    - intro H. apply H. left. reflexivity. }
  set (full := forall t, In t ts -> c_xoff cfg <= s_ps t) in *.
  destruct (dlt (smallest_p ts) (c_xfail cfg)), (dge (smallest_p ts) (c_xweak cfg)),
    (match ts with [] => true | t :: _ => c_xoff cfg <=? s_ps t end);
  destruct (N.eqb_spec (c_strategy cfg) 1) as [S1|S1];
  try (destruct (N.eqb_spec (c_strategy cfg) 2) as [S2|S2]);
  cbn; try rewrite S1; try rewrite S2; intuition (try discriminate; try lia).
Qed.

Section E.
Variable cfg : config.
Variable res : nat -> nat -> double.
Variable ksf : list double -> double.
Variable srt : list double -> list double.
Hypothesis Hsrt : forall l, Permutation (srt l) l.
Hypothesis Nksf : forall l, nn (ksf l).
Hypothesis Nres : forall c j, nn (res c j).
Hypothesis Sane : sane cfg.

Notation cut := (N.to_nat (pcutoff cfg (wanted cfg))).
Notation inv := (inv cfg res).

Definition good (k : nat) (s : nat * list stat) : Prop :=
  inv cut 0 (N.to_nat (samples_after cfg k)) s /\ forall t, In t (snd s) -> nn (s_ks t).

Definition ready (k : nat) (s : nat * list stat) : Prop :=
  (k = 0%nat /\ s = (0%nat, create_test cfg)) \/
  (exists k', k = S k' /\ good k' s /\ some_positive (snd s) /\ c_strategy cfg <> 0).

Lemma ready_step : forall k s, ready k s ->
  exists s', std_test cfg res ksf srt s = Ok s' /\ good k s'.
Proof.
  intros k s [[-> ->]|(k' & -> & [I _] & SP & St)].
  - destruct (first_call cfg res ksf srt Hsrt nn eq_refl Nksf Nres Sane) as (s' & E & I & q).
    exists s'. split; [exact E|split; assumption].
  - destruct (next_call cfg res ksf srt Hsrt nn eq_refl Nksf Nres k' s Sane St I SP) as (s' & E & I' & q).
    exists s'. split; [exact E|split; assumption].
Qed.

Lemma good_ne : forall k s, good k s -> snd s <> [] /\ forall t, In t (snd s) -> s_ps t = samples_after cfg k.
Proof.
  intros k s [(_ & Hl & K) _]. destruct Sane as [P _]. split.
  - intro E. rewrite E in Hl. cbn in Hl. lia.
  - intros t I. apply In_nth_error in I. destruct I as [j E]. destruct (K j t E) as [_ Hs].
    rewrite N2Nat.id in Hs. exact Hs.
Qed.

Hypothesis Xf : dgt (c_xfail cfg) dzero = true.

Lemma more_ready : forall k s, good k s -> need_more cfg (snd s) = true ->
  ready (S k) s /\ wanted cfg + N.of_nat k * c_xstep cfg < c_xoff cfg.
Proof.
  intros k s G M. destruct (good_ne k s G) as [NE PS]. destruct G as [I N].
  assert (ST : ~ stops cfg (snd s)).
  { intro X. apply (need_more_stops cfg (snd s) _ N NE PS) in X. congruence. }
  assert (S12 : c_strategy cfg = 1 \/ c_strategy cfg = 2).
  { destruct (N.eq_dec (c_strategy cfg) 1); auto. destruct (N.eq_dec (c_strategy cfg) 2); auto.
    exfalso. apply ST. right. right. auto. }
  assert (FF : ~ exists t, In t (snd s) /\ dlt (tail (s_ks t)) (c_xfail cfg) = true).
  { intro X. apply ST. destruct S12; [left|right; left]; auto. }
  split.
  - right. exists k. split; [reflexivity|]. split; [split; assumption|]. split; [|lia].
    destruct (some_positive_dec (snd s)) as [SP|SP]; [exact SP|exfalso].
    apply FF. destruct (snd s) as [|t ts]; [congruence|]. exists t. split; [left; reflexivity|].
    assert (Nt : nn (s_ks t)) by (apply N; left; reflexivity).
    destruct (tail_props (s_ks t) Nt) as (T1 & _ & T3).
    assert (Xf' := Xf). unfold dgt in Xf'. destruct (dlt_nan _ _ Xf') as [_ Nx].
    change (dlt dzero (c_xfail cfg) = true) in Xf'. apply dlt_val in Xf'; auto. rewrite val_zero in Xf'.
    apply dlt_val; auto.
    assert ((val (s_ks t) <= 0)%R); [|specialize (T3 H); lra].
    destruct (Rle_or_lt (val (s_ks t)) 0) as [L|L]; auto. exfalso. apply SP. exists t.
    split; [left; reflexivity|]. unfold dgt. change (dlt dzero (s_ks t) = true).
    apply dlt_val; auto.
  - assert (~ (c_xoff cfg <= samples_after cfg k)).
    { intro X. apply ST. destruct S12; [left|right; left]; split; auto; [right; right|right];
      intros t I'; rewrite (PS t I'); exact X. }
    unfold samples_after in *. lia.
Qed.

Lemma loop_ok : forall d k s, ready k s ->
  c_xoff cfg <= wanted cfg + N.of_nat k * c_xstep cfg + N.of_nat d ->
  exists reports,
    (forall fuel, (d < fuel)%nat -> exec_loop cfg res ksf srt fuel s = Ok reports) /\
    reports <> [] /\
    forall r ts, nth_error reports r = Some ts ->
      length ts = c_nkps cfg /\
      holds_exactly res 0 (samples_after cfg (k + r)) ts /\
      (stops cfg ts <-> S r = length reports) /\
      ((S r < length reports)%nat -> wanted cfg + N.of_nat (k + r) * c_xstep cfg < c_xoff cfg).
Proof.
  induction d; intros k s R B; destruct (ready_step k s R) as (s' & E & G);
  destruct (good_ne k s' G) as [NE PS]; pose proof (need_more_stops cfg (snd s') _ (proj2 G) NE PS) as NM;
  destruct (need_more cfg (snd s')) eqn:M.
  - exfalso. destruct (more_ready k s' G M). lia.
  - exists [snd s']. split; [|split; [discriminate|]].
    + intros [|f] Hf; [lia|]. cbn [exec_loop]. rewrite E. cbn [bind]. rewrite M. reflexivity.
    + intros [|r] ts En; cbn in En; [|destruct r; discriminate]. inversion En; subst ts.
      rewrite Nat.add_0_r. destruct G as [I G]. split; [apply I|].
      split; [exact (inv_holds cfg res 0 _ s' I)|]. split; [|cbn; lia].
      cbn. split; [reflexivity|]. intros _. apply NM. reflexivity.
  - destruct (more_ready k s' G M) as [R' B']. destruct (IHd (S k) s' R') as (reports & F & NR & H).
    { destruct Sane as (_ & _ & X & _). nia. }
    exists (snd s' :: reports). split; [|split; [discriminate|]].
    + intros [|f] Hf; [lia|]. cbn [exec_loop]. rewrite E. cbn [bind]. rewrite M.
      rewrite F by lia. reflexivity.
    + intros [|r] ts En; cbn [nth_error] in En.
      * inversion En; subst ts. rewrite Nat.add_0_r. destruct G as [I G].
        split; [apply I|]. split; [exact (inv_holds cfg res 0 _ s' I)|]. split; [|intros _; exact B'].
        split.
        -- intro X. apply NM in X. congruence.
        -- cbn. destruct reports; [congruence|cbn; lia].
      * destruct (H r ts En) as (H1 & H2 & H3 & H4). rewrite Nat.add_succ_r.
        cbn [length]. split; [exact H1|]. split; [exact H2|]. split; [|intro X; apply H4; lia].
        rewrite H3. lia.
  - exists [snd s']. split; [|split; [discriminate|]].
    + intros [|f] Hf; [lia|]. cbn [exec_loop]. rewrite E. cbn [bind]. rewrite M. reflexivity.
    + intros [|r] ts En; cbn in En; [|destruct r; discriminate]. inversion En; subst ts.
      rewrite Nat.add_0_r. destruct G as [I G]. split; [apply I|].
      split; [exact (inv_holds cfg res 0 _ s' I)|]. split; [|cbn; lia].
      cbn. split; [reflexivity|]. intros _. apply NM. reflexivity.
Qed.

End E.
