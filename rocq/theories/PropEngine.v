(** Properties C16-C19, C50 and C51: how many p-values a run accumulates, and when
    it stops. *)
From Coq Require Import Permutation.
From Verif Require Import EngineModel EngineSpec EngineLemmas EngineLemmas2 DoubleLemmas.
Open Scope N_scope.

(** C16: after create_test, a first std_test call and [k] further ones, every
    statistic holds exactly the p-values of all the executions of the test
    made so far, min(psamples + k*Xstep, Xoff) in number, none lost, none twice;
    no store falls outside the allocated vector (that would be [UB]).
    Assumed: the sort permutes, and after each call but the last some
    statistic had a positive Kolmogorov-Smirnov p-value. *)
Theorem C16_accumulation : forall cfg res ksf srt k,
  (forall l, Permutation (srt l) l) -> sane cfg ->
  c_strategy cfg <> 0 \/ k = 0%nat ->
  (forall i s, (1 <= i <= k)%nat ->
     iter_o i (std_test cfg res ksf srt) (0%nat, create_test cfg) = Ok s -> some_positive (snd s)) ->
  exists s, iter_o (S k) (std_test cfg res ksf srt) (0%nat, create_test cfg) = Ok s /\
    fst s = N.to_nat (samples_after cfg k) /\
    length (snd s) = c_nkps cfg /\
    holds_exactly res 0 (samples_after cfg k) (snd s).
Proof.
  intros cfg res ksf srt k Hs Sn St Pos.
  destruct (calls_ok cfg res ksf srt Hs (fun _ => True) I (fun _ => I) (fun _ _ => I) k Sn St Pos)
    as (s & E & Iv).
  exists s. split; [exact E|]. split; [apply Iv|]. split; [apply Iv|].
  exact (inv_holds cfg res 0 _ s Iv).
Qed.

(** Two statistics, -p 2 -Y 1 -P 5 with Xstep 2: 2, 4, 5 p-values. *)
Definition ex_cfg : config :=
  {| c_all := false; c_psamples := 2; c_stdps := 100; c_nkps := 2; c_strategy := 1;
     c_xoff := 5; c_xstep := 2; c_xweak := d_lit 5 1000; c_xfail := d_lit 1 1000000;
     c_kuiper := false |}.
Definition ex_res (c j : nat) : double := d_lit (Z.of_nat (7 * c + 3 * j + 1)) 100.
Definition ex_ksf (l : list double) : double := nth 1 l dzero.
Example C16_ex : sane ex_cfg /\
  match iter_o 3 (std_test ex_cfg ex_res ex_ksf (@rev double)) (0%nat, create_test ex_cfg) with
  | Ok (c, ts) => (c, map s_ps ts,
      map (fun t => map (fun p => existsb (deq p) (s_pv t)) (map (fun c => ex_res c 1) (seq 0 5))) ts)
  | _ => (0%nat, [], [])
  end = (5%nat, [5; 5], [[false; false; false; false; false]; [true; true; true; true; true]]).
Proof. split; [|vm_compute; reflexivity]. repeat split; cbn; lia. Qed.

(** -p 2 -Y 2 -P 5 -X xfail, Xstep 2. *)
Definition ttd (xfail : double) : config :=
  {| c_all := false; c_psamples := 2; c_stdps := 100; c_nkps := 1; c_strategy := 2;
     c_xoff := 5; c_xstep := 2; c_xweak := d_lit 5 1000; c_xfail := xfail;
     c_kuiper := false |}.

(** C17, as stated, is false: here every Kolmogorov-Smirnov p-value is 0.0;
    after the second call there are 2 p-values instead of 4, and the two of the
    first call are gone although 4 executions were made. *)
Theorem C17_zero_pvalue_refuted :
  exists cfg res ksf srt c ts t,
    (forall l, Permutation (srt l) l) /\ sane cfg /\ c_strategy cfg = 2 /\ c_psamples cfg = 2 /\
    c_xstep cfg = 2 /\ c_xoff cfg = 5 /\
    iter_o 2 (std_test cfg res ksf srt) (0%nat, create_test cfg) = Ok (c, ts) /\
    ts = [t] /\ c = 4%nat /\ s_ps t = 2 /\
    (forall p, In p (s_pv t) -> deq p (res 0%nat 0%nat) = false) /\
    (forall p, In p (s_pv t) -> deq p (res 1%nat 0%nat) = false).
Proof.
  exists (ttd dhalf), (fun c _ => if (c <? 2)%nat then dhalf else done), (fun _ => dzero), (fun l => l), 4%nat.
  set (t := {| s_ps := 2; s_ks := dzero; s_pv := [done; done; dzero; dzero; dzero] |}).
  exists [t], t. split; [reflexivity|]. split; [repeat split; cbn; lia|].
  do 4 (split; [reflexivity|]). split; [vm_compute; reflexivity|].
  do 3 (split; [reflexivity|]).
  assert (F : forallb (fun p => negb (deq p dhalf)) (s_pv t) = true) by (vm_compute; reflexivity).
  rewrite forallb_forall in F.
  split; intros p H; apply F in H; apply negb_true_iff in H; exact H.
Qed.

(** What does happen: when no Kolmogorov-Smirnov p-value is positive, std_test
    throws the p-values away and collects the same number again. *)
Theorem C17_restart : forall cfg res ksf srt s from n,
  (forall l, Permutation (srt l) l) -> (0 < c_nkps cfg)%nat ->
  length (snd s) = c_nkps cfg -> n <= c_xoff cfg -> n < 2 ^ 31 ->
  (forall t, In t (snd s) -> length (s_pv t) = N.to_nat (c_xoff cfg)) ->
  holds_exactly res from n (snd s) -> ~ some_positive (snd s) ->
  exists s', std_test cfg res ksf srt s = Ok s' /\
    fst s' = (fst s + N.to_nat n)%nat /\ holds_exactly res (fst s) n (snd s').
Proof.
  intros cfg res ksf srt [c ts] from n Hs P L X B Cut H SP. cbn [fst snd] in *.
  destruct (std_test_restart cfg res ksf srt Hs (fun _ => True) I (fun _ => I) (fun _ _ => I)
              (N.to_nat (c_xoff cfg)) from (N.to_nat n) n c ts L) as (s' & E & Iv & _); auto; try lia.
  { intros j t En. destruct (H j t En) as [H1 H2]. split; [split|]; auto.
    apply Cut. eapply nth_error_In; eauto. }
  exists s'. split; [exact E|]. rewrite N.min_l in Iv by exact X. split; [apply Iv|].
  intros j t En. destruct Iv as (_ & _ & K). destruct (K j t En) as ((_ & K1) & K2).
  rewrite N2Nat.id in K2. auto.
Qed.

(** C18: with Xfail > 0, Xstep > 0 and no NaN among the p-values, execute_test
    ends; round [r] reports min(psamples + r*Xstep, Xoff) p-values per
    statistic; the run ends with the first round that meets one of the
    documented stopping conditions, and with no other; and a round other than
    the last means Xoff was not reached, so there are finitely many. *)
Theorem C18_execute_test : forall cfg res ksf srt,
  (forall l, Permutation (srt l) l) ->
  (forall l, disnan (ksf l) = false) -> (forall c j, disnan (res c j) = false) ->
  sane cfg -> dgt (c_xfail cfg) dzero = true ->
  exists reports,
    (forall fuel, (N.to_nat (c_xoff cfg - wanted cfg) < fuel)%nat ->
       execute_test cfg res ksf srt fuel = Ok reports) /\
    reports <> [] /\
    forall r ts, nth_error reports r = Some ts ->
      length ts = c_nkps cfg /\
      holds_exactly res 0 (samples_after cfg r) ts /\
      (stops cfg ts <-> S r = length reports) /\
      ((S r < length reports)%nat -> wanted cfg + N.of_nat r * c_xstep cfg < c_xoff cfg).
Proof.
  intros cfg res ksf srt Hs N1 N2 Sn Xf.
  apply (loop_ok cfg res ksf srt Hs N1 N2 Sn Xf (N.to_nat (c_xoff cfg - wanted cfg)) 0%nat _
           (or_introl (conj eq_refl eq_refl))).
  lia.
Qed.
Example C18_ex : dgt (c_xfail ex_cfg) dzero = true /\
  match execute_test ex_cfg ex_res (fun _ => d_lit 1 1000) (@rev double) 4 with
  | Ok reports => map (map s_ps) reports
  | _ => []
  end = [[2; 2]; [4; 4]; [5; 5]] /\
  match execute_test ex_cfg ex_res (fun l => d_lit (Z.of_nat (length l)) 1000) (@rev double) 4 with
  | Ok reports => map (map s_ps) reports
  | _ => []
  end = [[2; 2]; [4; 4]; [5; 5]] /\
  match execute_test ex_cfg ex_res (fun _ => d_lit 1 2) (@rev double) 4 with
  | Ok reports => map (map s_ps) reports
  | _ => []
  end = [[2; 2]].
Proof. repeat split; vm_compute; reflexivity. Qed.

(** A run that stays in the same state for ever. *)
Lemma stuck : forall cfg res ksf srt (P : nat * list stat -> Prop),
  (forall s, P s -> exists s', std_test cfg res ksf srt s = Ok s' /\ need_more cfg (snd s') = true /\ P s') ->
  forall fuel s, P s -> exec_loop cfg res ksf srt fuel s = OutOfFuel.
Proof.
  intros cfg res ksf srt P H fuel. induction fuel; intros s Ps; [reflexivity|].
  destruct (H s Ps) as (s' & E & M & P'). cbn [exec_loop]. rewrite E. cbn [bind]. rewrite M.
  rewrite (IHfuel s' P'). reflexivity.
Qed.

Lemma ttd_stuck : forall xfail p,
  deq (pmax [{| s_ps := 2; s_ks := p; s_pv := [] |}]) dzero = true ->
  dlt (smallest_p [{| s_ps := 2; s_ks := p; s_pv := [] |}]) xfail = false ->
  forall fuel, execute_test (ttd xfail) (fun _ _ => dhalf) (fun _ => p) (fun l => l) fuel = OutOfFuel.
Proof.
  intros xfail p Z Sm fuel. unfold execute_test.
  apply stuck with (P := fun s => exists q v, snd s = [{| s_ps := 2; s_ks := q; s_pv := v |}] /\
    deq (pmax [{| s_ps := 2; s_ks := q; s_pv := [] |}]) dzero = true /\ length v = 5%nat).
  - intros [c ts] (q & v & E & Zq & L). cbn [snd] in E. subst ts.
    destruct v as [|v0 [|v1 [|v2 [|v3 [|v4 [|]]]]]]; cbn in L; try discriminate.
    exists (S (S c), [{| s_ps := 2; s_ks := p; s_pv := [dhalf; dhalf; v2; v3; v4] |}]). split; [|split].
    + unfold std_test. cbn [snd fst]. change (deq (pmax _) dzero) with (deq (pmax [{| s_ps := 2; s_ks := q; s_pv := [] |}]) dzero).
      rewrite Zq. reflexivity.
    + cbn [snd]. unfold need_more. cbn [c_strategy ttd]. change (2 =? 1) with false. change (2 =? 2) with true.
      cbv iota. change (smallest_p _) with (smallest_p [{| s_ps := 2; s_ks := p; s_pv := [] |}]).
      change (c_xfail (ttd xfail)) with xfail. rewrite Sm. reflexivity.
    + cbn [snd]. exists p. eexists. split; [reflexivity|]. split; [exact Z|reflexivity].
  - exists dzero, (repeat dzero 5). split; [reflexivity|]. split; reflexivity.
Qed.

(** C19, as stated, is false: test to destruction with -X 0 never ends when the
    Kolmogorov-Smirnov p-value is 0.0 ... *)
Theorem C19_xfail_zero_refuted :
  exists cfg res ksf srt,
    (forall l, Permutation (srt l) l) /\ sane cfg /\ c_xfail cfg = dzero /\
    (forall l, ksf l = dzero) /\ (forall c j, res c j = dhalf) /\
    forall fuel, execute_test cfg res ksf srt fuel = OutOfFuel.
Proof.
  exists (ttd dzero), (fun _ _ => dhalf), (fun _ => dzero), (fun l => l).
  split; [reflexivity|]. split; [repeat split; cbn; lia|]. do 3 (split; [reflexivity|]).
  apply ttd_stuck; vm_compute; reflexivity.
Qed.

(** ... and with the default thresholds when it is a NaN. *)
Theorem C19_nan_refuted :
  exists cfg res ksf srt,
    (forall l, Permutation (srt l) l) /\ sane cfg /\
    c_xfail cfg = d_lit 1 1000000 /\ c_xweak cfg = d_lit 5 1000 /\
    (forall l, ksf l = dnan) /\ (forall c j, res c j = dhalf) /\
    forall fuel, execute_test cfg res ksf srt fuel = OutOfFuel.
Proof.
  exists (ttd (d_lit 1 1000000)), (fun _ _ => dhalf), (fun _ => dnan), (fun l => l).
  split; [reflexivity|]. split; [repeat split; cbn; lia|]. do 4 (split; [reflexivity|]).
  apply ttd_stuck; vm_compute; reflexivity.
Qed.

(** C50: in the default mode one round is reported, with min(psamples, Xoff)
    p-values per statistic ... *)
Theorem C50_default_mode : forall cfg res ksf srt fuel,
  (forall l, Permutation (srt l) l) -> sane cfg -> c_strategy cfg = 0 -> (0 < fuel)%nat ->
  exists ts, execute_test cfg res ksf srt fuel = Ok [ts] /\ length ts = c_nkps cfg /\
    holds_exactly res 0 (N.min (wanted cfg) (c_xoff cfg)) ts.
Proof.
  intros cfg res ksf srt fuel Hs Sn St F.
  destruct (first_call cfg res ksf srt Hs (fun _ => True) I (fun _ => I) (fun _ _ => I) Sn)
    as (s & E & Iv & _).
  exists (snd s). destruct fuel; [lia|]. unfold execute_test. cbn [exec_loop]. rewrite E. cbn [bind].
  unfold need_more. rewrite St. change (0 =? 1) with false. change (0 =? 2) with false. cbv iota.
  split; [reflexivity|]. split; [apply Iv|].
  unfold samples_after in Iv. rewrite N.mul_0_l, N.add_0_r in Iv. exact (inv_holds cfg res 0 _ s Iv).
Qed.
Example C50_ex : sane (ttd dzero) /\ wanted (ttd dzero) = 2 /\
  match execute_test
    {| c_all := true; c_psamples := 9; c_stdps := 3; c_nkps := 2; c_strategy := 0;
       c_xoff := 100000; c_xstep := 100; c_xweak := d_lit 5 1000; c_xfail := d_lit 1 1000000;
       c_kuiper := true |} ex_res ex_ksf (@rev double) 1 with
  | Ok reports => map (map s_ps) reports | _ => [] end = [[3; 3]].
Proof. split; [repeat split; cbn; lia|]. split; [reflexivity|]. vm_compute. reflexivity. Qed.

(** ... so that a request for more than Xoff p-values (-p 200000, nothing else
    on the command line) is silently cut down to Xoff. *)
Theorem C50_request_honoured_refuted :
  exists cfg, sane cfg /\ c_strategy cfg = 0 /\ c_all cfg = false /\ c_psamples cfg = 200000 /\
    c_xoff cfg = 100000 /\
    forall res ksf srt fuel, (forall l, Permutation (srt l) l) -> (0 < fuel)%nat ->
    exists ts, execute_test cfg res ksf srt fuel = Ok [ts] /\
      forall t, In t ts -> s_ps t = 100000.
Proof.
  set (cfg := {| c_all := false; c_psamples := 200000; c_stdps := 100; c_nkps := 1; c_strategy := 0;
     c_xoff := 100000; c_xstep := 100; c_xweak := d_lit 5 1000; c_xfail := d_lit 1 1000000;
     c_kuiper := false |}).
  exists cfg. assert (Sn : sane cfg) by (repeat split; cbn; lia).
  repeat (split; [first [exact Sn|reflexivity]|]).
  intros res ksf srt fuel Hs F.
  destruct (C50_default_mode cfg res ksf srt fuel Hs Sn eq_refl F) as (ts & E & _ & H).
  exists ts. split; [exact E|]. intros t I. apply In_nth_error in I. destruct I as [j En].
  apply (H j t En).
Qed.

(** C51: clear_test makes a used test start over: the next std_test call
    collects min(psamples, Xoff) fresh p-values ... *)
Theorem C51_clear_test : forall cfg res ksf srt c ts,
  (forall l, Permutation (srt l) l) -> sane cfg -> length ts = c_nkps cfg ->
  (forall t, In t ts -> length (s_pv t) = N.to_nat (pcutoff cfg (wanted cfg))) ->
  (c_all cfg = true \/ c_psamples cfg = 0 -> 1 <= c_stdps cfg) ->
  exists s, std_test cfg res ksf srt (c, clear_test cfg ts) = Ok s /\
    fst s = (c + N.to_nat (N.min (wanted cfg) (c_xoff cfg)))%nat /\
    holds_exactly res c (N.min (wanted cfg) (c_xoff cfg)) (snd s).
Proof.
  intros cfg res ksf srt c ts Hs Sn L Cut M. destruct Sn as (P & W & X & O).
  assert (Ew : (if c_all cfg || (c_psamples cfg =? 0) then c_stdps cfg else c_psamples cfg) = wanted cfg).
  { unfold wanted. destruct (c_all cfg || (c_psamples cfg =? 0)) eqn:E; [|reflexivity].
    destruct (N.ltb_spec (c_stdps cfg) 1); [|reflexivity].
    exfalso. apply orb_true_iff in E. rewrite N.eqb_eq in E. specialize (M E). lia. }
  pose proof (pcutoff_ge cfg).
  destruct (std_test_restart cfg res ksf srt Hs (fun _ => True) I (fun _ => I) (fun _ _ => I)
              (N.to_nat (pcutoff cfg (wanted cfg))) 0 0 (wanted cfg) c (clear_test cfg ts))
    as (s & E & Iv & _); auto; try lia.
  - unfold clear_test. rewrite map_length. exact L.
  - intros j t En. unfold clear_test in En. rewrite nth_error_map in En.
    destruct (nth_error ts j) as [t0|] eqn:E0; [|discriminate]. cbn in En. inversion En; subst t.
    cbn [s_ps s_pv]. split; [split; [|constructor]|exact Ew]. apply (Cut t0). eapply nth_error_In; eauto.
  - intros (t & It & G). unfold clear_test in It. apply in_map_iff in It.
    destruct It as (t0 & <- & _). cbn in G. discriminate.
  - exists s. split; [exact E|]. split; [apply Iv|].
    exact (inv_holds cfg res c _ s Iv).
Qed.
Example C51_ex :
  match iter_o 2 (std_test ex_cfg ex_res ex_ksf (@rev double)) (0%nat, create_test ex_cfg) with
  | Ok (c, ts) =>
    match std_test ex_cfg ex_res ex_ksf (@rev double) (c, clear_test ex_cfg ts) with
    | Ok (c', ts') => (c, map s_ps ts, c', map s_ps ts') | _ => (0%nat, [], 0%nat, []) end
  | _ => (0%nat, [], 0%nat, []) end = (4%nat, [4; 4], 6%nat, [2; 2]).
Proof. vm_compute. reflexivity. Qed.

(** ... except when psamples comes from the default scaled down below one
    (-m 0.001): create_test then uses one p-value, clear_test none, and the
    call reports the value -1. *)
Theorem C51_scaled_below_one_refuted :
  exists cfg, sane cfg /\ c_psamples cfg = 0 /\ c_stdps cfg = 0 /\ wanted cfg = 1 /\
    forall res ksf srt, exists s1 s2,
    std_test cfg res ksf srt (0%nat, create_test cfg) = Ok s1 /\ map s_ps (snd s1) = [1] /\
    std_test cfg res ksf srt (fst s1, clear_test cfg (snd s1)) = Ok s2 /\
    map s_ps (snd s2) = [0] /\ map s_ks (snd s2) = [dminus1].
Proof.
  exists {| c_all := false; c_psamples := 0; c_stdps := 0; c_nkps := 1; c_strategy := 0;
     c_xoff := 100000; c_xstep := 100; c_xweak := d_lit 5 1000; c_xfail := d_lit 1 1000000;
     c_kuiper := false |}.
  split; [repeat split; cbn; lia|]. do 3 (split; [reflexivity|]).
  intros res ksf srt.
  exists (1%nat, [{| s_ps := 1; s_ks := res 0%nat 0%nat; s_pv := [res 0%nat 0%nat] |}]).
  exists (1%nat, [{| s_ps := 0; s_ks := dminus1; s_pv := [res 0%nat 0%nat] |}]).
  repeat (split; [reflexivity|]). reflexivity.
Qed.

Print Assumptions C16_accumulation.
Print Assumptions C17_zero_pvalue_refuted.
Print Assumptions C17_restart.
Print Assumptions C18_execute_test.
Print Assumptions C19_xfail_zero_refuted.
Print Assumptions C19_nan_refuted.
Print Assumptions C50_default_mode.
Print Assumptions C50_request_honoured_refuted.
Print Assumptions C51_clear_test.
Print Assumptions C51_scaled_below_one_refuted.
