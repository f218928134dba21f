(** C158: what a command line makes the program do (dieharder.c). *)
From Verif Require Import Base BaseLemmas FileModel CliModel CliSpec CliLemmas CliLemmas2 PropCli PropCli2 PropCli3 PropChoose RngTableModel PropRngTable MainModel.
Open Scope Z_scope.

Definition is_all (o : copt) : bool := match o with OptAll => true | _ => false end.
Definition is_output (o : copt) : bool := match o with Opto => true | _ => false end.
Definition is_bad (o : copt) : bool := match o with OptBad => true | _ => false end.

Ltac steps H := repeat (cbn [bind] in H; match type of H with bind ?e _ = Ok _ => destruct e eqn:?; try discriminate H end).
Lemma option_all c o c' : parse_option c o = Ok c' -> c_all c' = c_all c || is_all o.
Proof. intro H. destruct o; cbn [parse_option] in H; steps H; try discriminate H; injection H as <-; cbn; rewrite ?orb_false_r, ?orb_true_r; reflexivity. Qed.
Lemma option_out c o c' : parse_option c o = Ok c' -> c_ofile c' = c_ofile c || is_output o.
Proof. intro H. destruct o; cbn [parse_option] in H; steps H; try discriminate H; injection H as <-; cbn; rewrite ?orb_false_r, ?orb_true_r; reflexivity. Qed.
Lemma option_bad c o c' : parse_option c o = Ok c' -> c_err c' = (c_err c + if is_bad o then 1 else 0)%N.
Proof. intro H. destruct o; cbn [parse_option] in H; steps H; try discriminate H; injection H as <-; cbn; lia. Qed.
Lemma options_all : forall os c c', parse_options c os = Ok c' -> c_all c' = c_all c || existsb is_all os.
Proof.
  induction os as [|o os IH]; intros c c' H; cbn [parse_options] in H.
  - injection H as <-. cbn. now rewrite orb_false_r.
  - destruct (parse_option c o) as [c1| | |] eqn:E; try discriminate H. cbn [bind] in H.
    rewrite (IH _ _ H), (option_all _ _ _ E). cbn [existsb]. now rewrite orb_assoc.
Qed.
Lemma options_out : forall os c c', parse_options c os = Ok c' -> c_ofile c' = c_ofile c || existsb is_output os.
Proof.
  induction os as [|o os IH]; intros c c' H; cbn [parse_options] in H.
  - injection H as <-. cbn. now rewrite orb_false_r.
  - destruct (parse_option c o) as [c1| | |] eqn:E; try discriminate H. cbn [bind] in H.
    rewrite (IH _ _ H), (option_out _ _ _ E). cbn [existsb]. now rewrite orb_assoc.
Qed.
Lemma options_bad : forall os c c', parse_options c os = Ok c' -> existsb is_bad os = true \/ (0 < c_err c)%N -> (0 < c_err c')%N.
Proof.
  induction os as [|o os IH]; intros c c' H B; cbn [parse_options] in H.
  - injection H as <-. destruct B as [B|B]; [discriminate B|exact B].
  - destruct (parse_option c o) as [c1| | |] eqn:E; try discriminate H. cbn [bind] in H. apply (IH _ _ H).
    rewrite (option_bad _ _ _ E). cbn [existsb] in B. destruct (is_bad o); [right; lia|]. destruct B as [B|B]; [left; exact B|right; lia].
Qed.
Lemma parsecl_all os c : parsecl os = Ok c -> c_all c = existsb is_all os /\ c_ofile c = existsb is_output os.
Proof.
  intro H. apply parsecl_inv in H as (c' & P & ->). rewrite <- (orb_false_l (existsb is_all os)), <- (orb_false_l (existsb is_output os)).
  change false with (c_all cli0) at 1. rewrite <- (options_all _ _ _ P). change false with (c_ofile cli0) at 1. rewrite <- (options_out _ _ _ P).
  destruct (snd (c_flags c') =? 0); split; reflexivity.
Qed.

Definition fresh : registry := mkreg standard 18 3 12 0.
Lemma fresh_ok : dieharder_test_types registry0 = Ok fresh.
Proof. rewrite test_types_ok by reflexivity. reflexivity. Qed.

Section Main.
Variable exec : Z -> N -> outcome unit.
Variables (h : host) (os : list copt) (c : cli) (rngs : slots).
Hypothesis Hc : parsecl os = Ok c.
Hypothesis Hr : dieharder_rng_types (h_gsl h) (h_random h) (h_urandom h) (h_arandom h) = Ok rngs.
Let file := match c_file c with Some _ => true | None => false end.

Lemma main_chosen i : select_rng rngs (c_gens c) file = Ok (Some i) -> main exec h os =
  if existsb is_output os then Ok (WroteNumbers, 0) else
  if existsb is_all os then do st <- run_all_tests exec fresh ([], c_u c Ntuple) ;; Ok (RanTests (rev (fst st)), 0)
  else do num <- run_test fresh (fst (c_test c)) (snd (c_test c)) ;; do _ <- exec num (c_u c Ntuple) ;; Ok (RanTests [(num, c_u c Ntuple)], 0).
Proof.
  intro S. unfold main. rewrite Hc. cbn [bind]. rewrite Hr. cbn [bind]. rewrite fresh_ok. cbn [bind]. fold file. rewrite S. cbn [bind choose_rng_end].
  destruct (parsecl_all _ _ Hc) as (-> & ->). destruct (existsb is_output os); reflexivity.
Qed.

(** With a generator chosen and without -o: -a executes the whole schedule,
    whatever -d says, ... *)
Theorem C158_all : forall i, select_rng rngs (c_gens c) file = Ok (Some i) -> In OptAll os -> ~ In Opto os ->
  exists r, dieharder_test_types registry0 = Ok r /\
  main exec h os = do _ <- perform exec (schedule r (c_u c Ntuple)) ;; Ok (RanTests (schedule r (c_u c Ntuple)), 0).
Proof.
  intros i S A O. exists fresh. split; [exact fresh_ok|]. rewrite (main_chosen i S).
  destruct (existsb is_output os) eqn:E.
  { apply existsb_exists in E as (o & I & E). destruct o; try discriminate E. contradiction. }
  replace (existsb is_all os) with true by (symmetry; apply existsb_exists; exists OptAll; auto).
  rewrite C46_run_all by (vm_compute; congruence). destruct (perform _ _); try reflexivity. cbn [bind fst]. now rewrite rev_involutive.
Qed.
(** ... without -a exactly the test -d asks for is executed, or none and the
    status is 1, ... *)
Theorem C158_one : forall i before s n, select_rng rngs (c_gens c) file = Ok (Some i) -> ~ In OptAll os -> ~ In Opto os ->
  d_args os = before ++ [s] -> numeral s n -> (n < 2 ^ 31)%N -> exists r, dieharder_test_types registry0 = Ok r /\
  main exec h os = if is_registered r (Z.of_N n)
    then do _ <- exec (Z.of_N n) (c_u c Ntuple) ;; Ok (RanTests [(Z.of_N n, c_u c Ntuple)], 0)
    else Exit 1.
Proof.
  intros i before s n S A O D N B. exists fresh. split; [exact fresh_ok|]. rewrite (main_chosen i S).
  destruct (existsb is_output os) eqn:E.
  { apply existsb_exists in E as (o & I & E). destruct o; try discriminate E. contradiction. }
  destruct (existsb is_all os) eqn:E2.
  { apply existsb_exists in E2 as (o & I & E2). destruct o; try discriminate E2. contradiction. }
  rewrite (C88_by_number fresh os c before s n Hc D N B) by reflexivity. destruct (is_registered fresh (Z.of_N n)); reflexivity.
Qed.
(** ... and with neither -a nor -d none and the status is 1. *)
Theorem C158_neither : forall i, select_rng rngs (c_gens c) file = Ok (Some i) -> ~ In OptAll os -> ~ In Opto os ->
  d_args os = [] -> main exec h os = Exit 1.
Proof.
  intros i S A O D. rewrite (main_chosen i S). destruct (existsb is_output os) eqn:E.
  { apply existsb_exists in E as (o & I & E). destruct o; try discriminate E. contradiction. }
  destruct (existsb is_all os) eqn:E2.
  { apply existsb_exists in E2 as (o & I & E2). destruct o; try discriminate E2. contradiction. }
  assert (T : c_test c = (-1, [])).
  { apply parsecl_inv in Hc as (c' & P & ->). apply project_test in P. rewrite D in P. cbn in P. injection P as P.
    destruct (snd (c_flags c') =? 0); symmetry; exact P. }
  rewrite T. cbn [fst snd]. vm_compute (run_test _ _ _). reflexivity.
Qed.
(** With -o no test is executed, also with -a. *)
Theorem C158_output : forall i, select_rng rngs (c_gens c) file = Ok (Some i) -> In Opto os -> main exec h os = Ok (WroteNumbers, 0).
Proof.
  intros i S O. rewrite (main_chosen i S).
  replace (existsb is_output os) with true by (symmetry; apply existsb_exists; exists Opto; auto). reflexivity.
Qed.
(** Refuted: a generator that does not exist ends the program with status 0,
    as a complete run does, although nothing has been tested or written. *)
Theorem C158_unknown_refuted : forall s rest, g_args os = s :: rest -> (length rest <= 99)%nat -> word s -> (length s < 20)%nat ->
  (forall i, ~ generator_named rngs s i) -> main exec h os = Ok (ListedGenerators, 0).
Proof.
  intros s rest G L W B N. destruct (C141_by_name rngs file os c s rest Hc G L W B) as (_ & K).
  unfold main. rewrite Hc. cbn [bind]. rewrite Hr. cbn [bind]. rewrite fresh_ok. cbn [bind]. fold file. rewrite K by (left; exact N). reflexivity.
Qed.
End Main.

(** Refuted: an option that does not exist ends it with status 0 as well. *)
Theorem C158_bad_option_refuted : forall exec h os c, parse_options cli0 os = Ok c -> In OptBad os -> main exec h os = Exit 0.
Proof.
  intros exec h os c P B. unfold main, parsecl. destruct os as [|o os]; [destruct B|]. rewrite P. cbn [bind].
  assert (E : existsb is_bad (o :: os) = true) by (apply existsb_exists; exists OptBad; auto).
  pose proof (options_bad _ _ _ P (or_introl E)) as Q.
  destruct (N.ltb_spec 0 (c_err c)); [reflexivity|lia].
Qed.

Definition small : host := mkhost (map bytes_of ["borosh13"; "cmrg"; "coveyou"; "fishman18"; "fishman20"; "fishman2x"; "gfsr4"; "knuthran";
  "knuthran2"; "knuthran2002"; "lecuyer21"; "minstd"; "mrg"; "mt19937"]%string) false true false.
Example C158_ex : let exec := fun _ _ => Ok tt in
  main exec small [Optd (bytes_of "100"); OptU Ntuple (bytes_of "7")] = Ok (RanTests [(100, 7%N)], 0) /\
  main exec small [Optg (bytes_of "mt19938"); OptAll] = Ok (ListedGenerators, 0) /\
  main exec small [Opto; OptAll] = Ok (WroteNumbers, 0) /\
  main exec small [OptB] = Exit 1 /\
  match main exec small [Optd (bytes_of "100"); OptAll] with Ok (RanTests l, 0) => length l = 82%nat | _ => False end.
Proof. vm_compute. repeat split. Qed.

Print Assumptions C158_all.
Print Assumptions C158_one.
Print Assumptions C158_neither.
Print Assumptions C158_output.
Print Assumptions C158_unknown_refuted.
Print Assumptions C158_bad_option_refuted.
