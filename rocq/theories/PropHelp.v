(** C164: what -h, -l and -F print (help.c, parsecl.c). *)
From Coq Require Import Sorted.
From Verif Require Import Base BaseLemmas FileModel CliModel CliSpec CliLemmas CliLemmas2 PropCli PropCli2 ListTestsModel PropListTests HelpModel.
Open Scope Z_scope.

Lemma one_option c o c1 : parse_option c o = Ok c1 ->
  (c_help c1 = true <-> c_help c = true \/ o = Opth) /\ (c_list c1 = true <-> c_list c = true \/ o = Optl) /\
  (c_show c1 = true <-> c_show c = true \/ o = OptF) /\ (c_all c1 = true <-> c_all c = true \/ o = OptAll) /\
  ((0 < c_err c1)%N <-> (0 < c_err c)%N \/ o = OptBad).
Proof.
  intro E. destruct o; cbn [parse_option] in E; try discriminate E;
    repeat match type of E with
      | bind ?x _ = _ => destruct x; cbn [bind] in E; try discriminate E end;
    injection E as <-; cbn [c_help c_list c_show c_all c_err set_u set_flags set_test set_gens set_tsamples];
    (split; [|split; [|split; [|split]]]);
    first [ split; [intro H; left; exact H | intros [H|H]; [exact H|discriminate H]]
          | split; [intro H; right; reflexivity | intros _; first [reflexivity|lia]] ].
Qed.
(** the switches after the loop over the options *)
Lemma switches : forall os c c', parse_options c os = Ok c' ->
  (c_help c' = true <-> c_help c = true \/ In Opth os) /\ (c_list c' = true <-> c_list c = true \/ In Optl os) /\
  (c_show c' = true <-> c_show c = true \/ In OptF os) /\ (c_all c' = true <-> c_all c = true \/ In OptAll os) /\
  ((0 < c_err c')%N <-> (0 < c_err c)%N \/ In OptBad os).
Proof.
  induction os as [|o t IH]; intros c c' H; cbn [parse_options In] in *.
  - injection H as <-. tauto.
  - destruct (parse_option c o) as [c1|?|?|] eqn:E; cbn [bind] in H; try discriminate.
    destruct (IH _ _ H) as (A1 & A2 & A3 & A4 & A5). destruct (one_option _ _ _ E) as (B1 & B2 & B3 & B4 & B5).
    rewrite A1, A2, A3, A4, A5, B1, B2, B3, B4, B5. clear. rewrite !or_assoc. tauto.
Qed.

Definition no_listing (os : list copt) : Prop := ~ In OptBad os /\ ~ In Optl os /\ ~ In OptF os.

Lemma helps os c : parse_options cli0 os = Ok c -> In Opth os -> no_listing os ->
  printed os = help registry0 (c_all c) (fst (c_test c)) /\ parsecl os = Exit 0.
Proof.
  intros P I (B & L & F). destruct (switches _ _ _ P) as (S1 & S2 & S3 & S4 & S5). cbn [c_help c_list c_show c_all c_err cli0] in *.
  assert (c_help c = true) by tauto.
  assert (c_list c = false) by (destruct (c_list c); [|reflexivity]; destruct S2 as [S2 _]; destruct (S2 eq_refl); [discriminate|tauto]).
  assert (c_show c = false) by (destruct (c_show c); [|reflexivity]; destruct S3 as [S3 _]; destruct (S3 eq_refl); [discriminate|tauto]).
  assert (E : (0 <? c_err c)%N = false).
  { destruct (N.ltb_spec 0 (c_err c)) as [X|X]; [|reflexivity]. apply S5 in X. destruct X; [lia|tauto]. }
  unfold printed, parsecl. destruct os as [|o t]; [destruct I|]. rewrite P. cbn [bind]. rewrite E, H0, H1, H. split; reflexivity.
Qed.
Lemma not_all os c : parse_options cli0 os = Ok c -> ~ In OptAll os -> c_all c = false.
Proof.
  intros P I. destruct (switches _ _ _ P) as (_ & _ & _ & S & _). destruct (c_all c); [|reflexivity].
  destruct S as [S _]. destruct (S eq_refl) as [X|X]; [discriminate X|contradiction].
Qed.

(** C164: with -h and a last -d that is a number, the description of exactly
    that test is printed if it is registered, the summary of the options if
    not; the status is 0. *)
Theorem C164_number : forall os c before s n, parse_options cli0 os = Ok c -> In Opth os -> no_listing os -> ~ In OptAll os ->
  d_args os = before ++ [s] -> numeral s n -> (n < 2 ^ 31)%N ->
  exists r, dieharder_test_types registry0 = Ok r /\ parsecl os = Exit 0 /\
  (is_registered r (Z.of_N n) = false -> printed os = Ok UsagePage) /\
  (forall d, nth_error (r_types r) (N.to_nat n) = Some (Some d) -> printed os = Ok (Descriptions [(Z.of_N n, sname d)])).
Proof.
  intros os c before s n P I NL NA D Hn B. destruct (helps os c P I NL) as (E & X).
  eexists. split; [apply test_types_ok; reflexivity|]. split; [exact X|]. rewrite E, (not_all os c P NA).
  assert (T : fst (c_test c) = Z.of_N n).
  { apply project_test in P. rewrite D, fold_last in P. injection P as P. rewrite <- P, (option_d_number _ s n Hn B). reflexivity. }
  rewrite T. unfold help. rewrite test_types_ok by reflexivity. cbn [bind r_types]. unfold is_registered. cbn [r_types].
  assert (L : length standard = 1000%nat) by (vm_compute; reflexivity).
  replace (Z.to_nat (Z.of_N n)) with (N.to_nat n) by lia.
  destruct (Z.leb_spec 0 (Z.of_N n)); [|lia]. unfold MAXTESTS. destruct (Z.ltb_spec (Z.of_N n) 1000) as [G|G]; cbn [andb].
  - destruct (aget_nth standard (Z.of_N n) ltac:(lia)) as (x & N & A). rewrite A. cbn [bind].
    replace (Z.to_nat (Z.of_N n)) with (N.to_nat n) in N by lia. rewrite N. destruct x as [d|]; split.
    + intro Q. discriminate Q.
    + intros d' Q. injection Q as ->. reflexivity.
    + intros _. reflexivity.
    + intros d' Q. discriminate Q.
  - split; [reflexivity|]. intros d Q. assert (nth_error standard (N.to_nat n) <> None) as Y by congruence.
    apply nth_error_Some in Y. lia.
Qed.

Lemma describe_list t : forall n i, describe_from t i n = do l <- list_from t i n ;; Ok (map fst l).
Proof.
  induction n as [|n IH]; intro i; [reflexivity|]. cbn [describe_from list_from]. destruct (aget t i) as [e|?|?|]; try reflexivity.
  cbn [bind]. rewrite IH. destruct (list_from t (i + 1) n); try reflexivity. cbn [bind]. destruct e; reflexivity.
Qed.

(** C164: with -h and -a the descriptions of all registered tests are
    printed, each once, in the order of their numbers. *)
Theorem C164_all : forall os c, parse_options cli0 os = Ok c -> In Opth os -> no_listing os -> In OptAll os ->
  exists r l, dieharder_test_types registry0 = Ok r /\ parsecl os = Exit 0 /\ printed os = Ok (Descriptions l) /\
  StronglySorted (fun a b => fst a < fst b) l /\
  (forall num nm, In (num, nm) l <-> 0 <= num /\ exists d, nth_error (r_types r) (Z.to_nat num) = Some (Some d) /\ sname d = nm).
Proof.
  intros os c P I NL IA. destruct (helps os c P I NL) as (E & X).
  assert (A : c_all c = true) by (destruct (switches _ _ _ P) as (_ & _ & _ & S & _); tauto).
  destruct (list_from_spec standard 900 0 ltac:(lia) ltac:(vm_compute; congruence)) as (l & F & H & S).
  eexists. exists (map fst l). split; [apply test_types_ok; reflexivity|]. split; [exact X|]. split.
  - rewrite E, A. unfold help. rewrite test_types_ok by reflexivity. cbn [bind r_types]. rewrite describe_list, F. reflexivity.
  - split.
    + clear - S. induction S as [|a l S IH Fa]; cbn [map]; constructor; [exact IH|].
      apply Forall_map. exact Fa.
    + cbn [r_types]. intros num nm. rewrite in_map_iff. split.
      * intros ([[n' nm'] m] & Q & I'). cbn in Q. injection Q as -> ->. apply H in I'. destruct I' as (B & _ & d & N & ->). split; [lia|eauto].
      * intros (B & d & N & <-). exists (num, sname d, mark_of num). split; [reflexivity|]. apply H.
        pose proof (nothing_above _ _ N). split; [lia|]. eauto.
Qed.

(** C164: a bad option comes first, then -l, then -F, whatever else is given. *)
Theorem C164_order : forall os c, parse_options cli0 os = Ok c -> os <> [] ->
  (In OptBad os -> printed os = Ok UsagePage /\ parsecl os = Exit 0) /\
  (~ In OptBad os -> In Optl os -> (exists l, list_tests registry0 = Ok l /\ printed os = Ok (TestList l)) /\ parsecl os = Exit 0) /\
  (~ In OptBad os -> ~ In Optl os -> In OptF os -> printed os = Ok FlagTable /\ parsecl os = Exit 0) /\
  (no_listing os -> ~ In Opth os -> printed os = Ok GoesOn /\ exists c', parsecl os = Ok c').
Proof.
  intros os c P Ne. destruct (switches _ _ _ P) as (S1 & S2 & S3 & _ & S5). cbn [c_help c_list c_show c_err cli0] in *.
  assert (R : printed os = do c <- parse_options cli0 os ;; if (0 <? c_err c)%N then Ok UsagePage
    else if c_list c then do l <- list_tests registry0 ;; Ok (TestList l) else if c_show c then Ok FlagTable
    else if c_help c then help registry0 (c_all c) (fst (c_test c)) else Ok GoesOn) by (destruct os; [congruence|reflexivity]).
  assert (R' : parsecl os = do c <- parse_options cli0 os ;; if (0 <? c_err c)%N then Exit 0 else if c_list c then Exit 0 else if c_show c then Exit 0
    else if c_help c then Exit 0 else if (snd (c_flags c) =? 0)%Z then Ok (set_flags c (tflag_default, snd (c_flags c))) else Ok c)
    by (destruct os; [congruence|reflexivity]).
  rewrite R, R', P. cbn [bind]. clear R R'.
  assert (V : forall b (Q : Prop), (b = true <-> false = true \/ Q) -> (Q -> b = true) /\ (~ Q -> b = false)).
  { intros b Q [Y Z]. split; [auto|]. intro N. destruct b; [|reflexivity]. destruct (Y eq_refl); [discriminate|contradiction]. }
  destruct (V _ _ S1) as (h1 & h0), (V _ _ S2) as (l1 & l0), (V _ _ S3) as (f1 & f0).
  assert (e1 : In OptBad os -> (0 <? c_err c)%N = true) by (intro; apply N.ltb_lt; tauto).
  assert (e0 : ~ In OptBad os -> (0 <? c_err c)%N = false).
  { intro N. apply N.ltb_ge. destruct (N.lt_ge_cases 0 (c_err c)) as [Y|Y]; [|exact Y]. apply S5 in Y. destruct Y; [lia|contradiction]. }
  split; [|split; [|split]].
  - intro B. rewrite (e1 B). split; reflexivity.
  - intros B L. rewrite (e0 B), (l1 L). split; [|reflexivity].
    destruct (C157_listed registry0 eq_refl) as (r1 & l & _ & E & _). exists l. rewrite E. split; reflexivity.
  - intros B L F. rewrite (e0 B), (l0 L), (f1 F). split; reflexivity.
  - intros (B & L & F) N. rewrite (e0 B), (l0 L), (f0 F), (h0 N). split; [reflexivity|]. destruct (snd (c_flags c) =? 0); eexists; reflexivity.
Qed.

(** -h never describes a test chosen by its name: the names are only looked up
    when a test is run. *)
Theorem C164_name_refuted : forall os c, parse_options cli0 os = Ok c -> In Opth os -> no_listing os -> ~ In OptAll os ->
  Forall (fun s => word s /\ (length s < 128)%nat) (d_args os) -> printed os = Ok UsagePage.
Proof.
  intros os c P I NL NA F. destruct (helps os c P I NL) as (E & _). rewrite E, (not_all os c P NA).
  assert (T : fst (c_test c) = -1).
  { apply project_test in P. assert (Q : forall l st, fold_left (fun a s => do x <- a ;; Ok (option_d x s)) l (Ok st) = Ok (fold_left option_d l st)).
    { induction l as [|s l IH]; intro st; [reflexivity|]. cbn [fold_left bind]. apply IH. }
    rewrite Q in P. injection P as P. rewrite <- P, option_d_words by exact F. reflexivity. }
  rewrite T. unfold help. rewrite test_types_ok by reflexivity. reflexivity.
Qed.

(** ... although the same choice without -h runs that test; and the example in
    the summary of the options, "dieharder -D 3 -h", describes no test. *)
Theorem C164_documented_refuted :
  printed [Optd (bytes_of "diehard_opso"); Opth] = Ok UsagePage /\
  (exists c r, parsecl [Optd (bytes_of "diehard_opso")] = Ok c /\ dieharder_test_types registry0 = Ok r /\
     run_test r (fst (c_test c)) (snd (c_test c)) = Ok 5) /\
  printed [OptD (bytes_of "3"); Opth] = Ok UsagePage.
Proof.
  assert (K : forall b, b <> Optd (bytes_of "diehard_opso") -> b <> Opth -> ~ In b [Optd (bytes_of "diehard_opso"); Opth]).
  { intros b A B [X|[X|[]]]; congruence. }
  split; [|split].
  - eapply C164_name_refuted; [reflexivity|cbn; tauto|repeat split; apply K; discriminate|apply K; discriminate|].
    change (d_args _) with [bytes_of "diehard_opso"]. apply Forall_cons; [|apply Forall_nil].
    split; [exists 100%N; eexists; split; [reflexivity|]; unfold letter; lia|vm_compute; lia].
  - eexists. eexists. split; [reflexivity|]. split; [apply test_types_ok; reflexivity|]. vm_compute. reflexivity.
  - eapply C164_name_refuted; [vm_compute; reflexivity|cbn; tauto| | |constructor].
    + repeat split; intros [X|[X|[]]]; discriminate X.
    + intros [X|[X|[]]]; discriminate X.
Qed.

Example C164_ex : printed [Opth; Optd (bytes_of "5")] = Ok (Descriptions [(5, bytes_of "diehard_opso")]) /\
  printed [Opth; Optd (bytes_of "50")] = Ok UsagePage /\ printed [OptF; Opth] = Ok FlagTable /\
  (exists l, printed [OptAll; Opth] = Ok (Descriptions l) /\ length l = 33%nat) /\
  (exists l, printed [Optl; OptF; Opth] = Ok (TestList l)).
Proof.
  repeat split; try (vm_compute; reflexivity); eexists; [split|]; vm_compute; reflexivity.
Qed.

Print Assumptions C164_number.
Print Assumptions C164_all.
Print Assumptions C164_order.
Print Assumptions C164_name_refuted.
Print Assumptions C164_documented_refuted.
