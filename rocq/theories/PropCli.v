(** C45: the -D options.  C46, C88: dieharder -a. *)
From Verif Require Import Base BaseLemmas FileModel CliModel CliSpec CliLemmas CliLemmas2.
Open Scope N_scope.

(** ** C45 *)

(** The program's own listing (-F) is the list of fields of the
    specification. *)
Theorem C45_listing :
  flag_listing = (0, bytes_of "default") ::
                 map (fun p => (fst p, bytes_of (snd p))) output_fields.
Proof. reflexivity. Qed.

(** The default fields are those of the specification. *)
Theorem C45_default_fields :
  tflag_default =
  union (map fst (filter (fun p => existsb (String.eqb (snd p)) default_fields) output_fields)).
Proof. reflexivity. Qed.

(** An accepted command line whose -D options ask for fields without
    repetition: the flag word is the union of what was asked for; after a
    request for the default (the last one counts), the union of the default
    and what is asked for afterwards; without -D options the default. *)
Theorem C45_flags os c reqs : parsecl os = Ok c ->
  Forall (fun sm => asks_known (fst sm) (snd sm)) reqs ->
  (D_args os = map fst reqs -> reqs <> [] -> no_repetition (map snd reqs) ->
     fst (c_flags c) = union (map snd reqs)) /\
  (forall before d, D_args os = before ++ d :: map fst reqs -> asks_default d ->
     no_repetition (tflag_default :: map snd reqs) ->
     fst (c_flags c) = N.lor tflag_default (union (map snd reqs))) /\
  (D_args os = [] -> fst (c_flags c) = tflag_default).
Proof.
  intros H K. apply parsecl_inv in H as (c' & P & ->). apply project_flags in P.
  cbn [c_flags cli0] in P. split; [|split].
  - intros E NE D. rewrite E in P.
    destruct (flags_run reqs 0 0%Z K) as (tmp & A & B & R).
    { constructor; auto. rewrite Forall_forall. intros b _. apply N.land_0_l. }
    { reflexivity. }
    rewrite P in R. injection R as R. rewrite R. cbn [snd fst].
    destruct (Z.eqb_spec tmp 0); [exfalso; apply A; auto|]. rewrite R. reflexivity.
  - intros before d E AD D. rewrite E in P. rewrite fold_left_app in P. cbn [fold_left] in P.
    assert (X : exists st, fold_left (fun a s => do x <- a ;; option_D x s) before (Ok (0, 0%Z)) = Ok st).
    { destruct (fold_left _ before _) as [st|e|w|]; [eauto| | |]; exfalso; cbn [bind] in P;
        clear - P; induction reqs; cbn in P; try discriminate; auto. }
    destruct X as [st X]. rewrite X in P. cbn [bind] in P.
    rewrite (option_D_default st d AD) in P.
    destruct (flags_run reqs tflag_default 0%Z K D) as (tmp & A & B & R); [reflexivity|].
    rewrite P in R. injection R as R. rewrite R. cbn [snd fst].
    destruct (Z.eqb_spec tmp 0) as [Z0|]; [|rewrite R; reflexivity].
    destruct reqs; [reflexivity|]. exfalso. apply A; [discriminate | assumption].
  - intros E. rewrite E in P. cbn in P. injection P as P. rewrite <- P. reflexivity.
Qed.

(** Every such request is accepted, and what is neither a number nor one of
    the names is refused with exit status 1. *)
Theorem C45_accepted c s m : asks_known s m \/ asks_default s -> fst (c_flags c) < 2 ^ 32 ->
  exists c', parse_option c (OptD s) = Ok c'.
Proof.
  intros [H|H] L; cbn; destruct (c_flags c) as [t tmp].
  - destruct (option_D_known t tmp s m H L) as (_ & _ & tmp' & _ & E). rewrite E. cbn. eauto.
  - rewrite option_D_default by assumption. cbn. eauto.
Qed.
Theorem C45_refused c s : snd (strtol s) <> [] ->
  s <> bytes_of "default" -> (forall m f, In (m, f) output_fields -> s <> bytes_of f) ->
  parse_option c (OptD s) = Exit 1.
Proof.
  intros H0 H1 H2. cbn. unfold option_D. destruct (c_flags c) as [t tmp].
  destruct (strtol s) as [z [|x r]]; [cbn in H0; congruence|].
  destruct (find_field (firstn TCNT table_fields) 0 s) as [k|] eqn:E; [exfalso|reflexivity].
  apply find_field_word, nth_error_In in E.
  assert (F : incl (firstn TCNT table_fields)
            (bytes_of "default" :: map (fun p => bytes_of (snd p)) output_fields)).
  { intros f Hf. vm_compute in Hf. vm_compute. tauto. }
  apply F in E. destruct E as [E|E]; [congruence|].
  apply in_map_iff in E as ([m f] & E & I). exact (H2 m f I (eq_sym E)).
Qed.

(** The last listed field cannot be requested by its name. *)
Theorem C45_name_refuted :
  exists s m, asks s m /\ forall c, parse_option c (OptD s) = Exit 1.
Proof.
  exists (bytes_of "file_rng_stat"), 131072. split.
  - apply asks_name. cbn. tauto.
  - intros c. cbn [parse_option]. unfold option_D. destruct (c_flags c) as [t tmp]. reflexivity.
Qed.

(** A field requested twice is not shown: another one is. *)
Theorem C45_twice_refuted : exists os c,
  parsecl os = Ok c /\ D_args os = [bytes_of "header"; bytes_of "header"] /\
  N.land (fst (c_flags c)) 1 = 0 /\ fst (c_flags c) = 2.
Proof.
  exists [OptD (bytes_of "header"); OptD (bytes_of "header")].
  eexists. split; [reflexivity|]. repeat split; reflexivity.
Qed.
(** Neither is a default field requested after the default. *)
Theorem C45_default_twice_refuted : exists os c,
  parsecl os = Ok c /\ D_args os = [bytes_of "default"; bytes_of "rate"] /\
  N.land (fst (c_flags c)) 8192 = 0.
Proof.
  exists [OptD (bytes_of "default"); OptD (bytes_of "rate")].
  eexists. split; [reflexivity|]. repeat split; reflexivity.
Qed.

(** The hypotheses of [C45_flags] are met by a command line mixing names and
    numbers with other options: -D pvalues -d 2 -D 24 -t 1000. *)
Example C45_flags_case : exists c,
  parsecl [OptD (bytes_of "pvalues"); Optd (bytes_of "2"); OptD (bytes_of "24");
           Optt (bytes_of "1000")] = Ok c /\
  Forall (fun sm => asks_known (fst sm) (snd sm))
    [(bytes_of "pvalues", 128); (bytes_of "24", 24)] /\
  no_repetition [128; 24] /\ fst (c_flags c) = 152.
Proof.
  eexists. split; [reflexivity|]. split; [|split].
  - constructor; [|constructor; [|constructor]].
    + apply known_name; [cbn; tauto | discriminate].
    + apply known_number; [|reflexivity|reflexivity]. split; [discriminate|].
      split; [|reflexivity]. repeat constructor; discriminate.
  - repeat constructor.
  - reflexivity.
Qed.
Example C45_refused_case : parse_option cli0 (OptD (bytes_of "8x")) = Exit 1.
Proof. apply C45_refused.
  - discriminate.
  - discriminate.
  - intros m f H. cbn in H.
    repeat (destruct H as [H|H]; [injection H as <- <-; discriminate|]). contradiction.
Qed.
Example C45_accepted_case : exists c', parse_option cli0 (OptD (bytes_of "rate")) = Ok c'.
Proof. apply (C45_accepted cli0 _ 8192); [|reflexivity]. left. apply (known_name "rate"); [cbn; tauto|discriminate]. Qed.

(** ** C46 *)

(** -a executes exactly the schedule, in its order (up to the test that ends
    the program, if one does), and leaves ntuple as it was. *)
Theorem C46_run_all exec r nt : length (r_types r) = 1000%nat ->
  r_diehard r <= 1000 -> r_sts r <= 900 -> r_other r <= 800 ->
  run_all_tests exec r ([], nt) =
  do _ <- perform exec (schedule r nt) ;; Ok (rev (schedule r nt), nt).
Proof.
  intros. rewrite run_all_does by assumption. unfold does. cbn [fst snd].
  rewrite app_nil_r. reflexivity.
Qed.

(** The program's table of tests: every registered test is executed, with
    the documented values of ntuple. *)
Theorem C46_all_tests nt : exists r,
  dieharder_test_types registry0 = Ok r /\
  schedule r nt =
    map (fun num => (num, nt)) (numbers 0 18 ++ numbers 100 3) ++
    flat_map (fun num => map (fun n => (num, n)) (ntuples num nt)) (numbers 200 12) /\
  (forall num, is_registered r num = true -> (0 <= num)%Z -> exists n, In (num, n) (schedule r nt)) /\
  (forall exec, (forall num n, exec num n = Ok tt) ->
     exists tr, run_all_tests exec r ([], nt) = Ok (tr, nt) /\ rev tr = schedule r nt).
Proof.
  eexists. split; [rewrite test_types_ok by (vm_compute; reflexivity); reflexivity|].
  assert (S0 : schedule (mkreg standard 18 3 12 0) nt =
    map (fun num => (num, nt)) (numbers 0 18 ++ numbers 100 3) ++
    flat_map (fun num => map (fun n => (num, n)) (ntuples num nt)) (numbers 200 12)).
  { unfold schedule. cbn [r_diehard r_sts r_other].
    assert (F : forall a n, (a, n) = (0%Z, 18) \/ (a, n) = (100%Z, 3) \/ (a, n) = (200%Z, 12) ->
      filter (is_registered (mkreg standard 18 3 12 0)) (numbers a n) = numbers a n).
    { intros a n [E|[E|E]]; injection E as -> ->; vm_compute; reflexivity. }
    rewrite !F by auto. rewrite map_app, <- app_assoc. reflexivity. }
  change (plus_tests (r_sts registry0) sts_tests) with 3.
  change (plus_tests (r_other registry0) other_tests) with 12.
  change (r_user registry0) with 0.
  split; [exact S0|]. split.
  - intros num H P. rewrite S0.
    assert (R : (num < 1000)%Z).
    { unfold is_registered in H. cbn [r_types] in H.
      destruct (nth_error standard (Z.to_nat num)) eqn:E; [|discriminate].
      assert (nth_error standard (Z.to_nat num) <> None) by congruence.
      apply nth_error_Some in H0. change (length standard) with 1000%nat in H0. lia. }
    assert (D : In num (numbers 0 18 ++ numbers 100 3) \/ In num (numbers 200 12)).
    { assert (C : forallb (fun i => negb (is_registered (mkreg standard 18 3 12 0) i) ||
          (existsb (Z.eqb i) (numbers 0 18 ++ numbers 100 3) || existsb (Z.eqb i) (numbers 200 12)))
          (map Z.of_nat (seq 0 1000)) = true) by (vm_compute; reflexivity).
      rewrite forallb_forall in C. specialize (C num).
      rewrite H in C. cbn [negb orb] in C.
      assert (I : In num (map Z.of_nat (seq 0 1000))).
      { apply in_map_iff. exists (Z.to_nat num). split; [lia|]. apply in_seq. lia. }
      apply C in I. apply orb_prop in I as [I|I]; apply existsb_exists in I as (x & I1 & I2);
        apply Z.eqb_eq in I2; subst; auto. }
    destruct D as [D|D].
    + exists nt. apply in_or_app. left. apply in_map_iff. exists num. auto.
    + assert (X : exists n, In n (ntuples num nt)).
      { unfold ntuples. destruct (nt =? 0).
        - repeat match goal with |- context [if ?b then _ else _] => destruct b end;
            eexists; left; reflexivity.
        - repeat match goal with |- context [if ?b then _ else _] => destruct b end;
            eexists; left; reflexivity. }
      destruct X as [n X]. exists n. apply in_or_app. right. apply in_flat_map.
      exists num. split; auto. apply in_map_iff. exists n. auto.
  - intros exec T. exists (rev (schedule (mkreg standard 18 3 12 0) nt)).
    rewrite C46_run_all by (reflexivity || discriminate).
    rewrite rev_involutive. split; auto.
    assert (P : forall l, perform exec l = Ok tt).
    { induction l as [|[a b] l IH]; cbn; auto. rewrite T. exact IH. }
    rewrite P. reflexivity.
Qed.

(** A test registered by the user interface (number 600) is not executed. *)
Theorem C46_user_refuted user nt : exists r r', 
  dieharder_test_types registry0 = Ok r /\ add_ui_tests user r = Ok r' /\
  is_registered r' 600 = true /\ forall n, ~ In (600%Z, n) (schedule r' nt).
Proof.
  eexists. eexists. split; [rewrite test_types_ok by (vm_compute; reflexivity); reflexivity|].
  split; [vm_compute; reflexivity|]. split; [reflexivity|].
  intros n H.
  assert (B : forall r, r_diehard r = 18 -> r_sts r = 3 -> r_other r = 12 ->
    ~ In (600%Z, n) (schedule r nt)).
  { clear. intros r H1 H2 H3 H. unfold schedule in H. rewrite H1, H2, H3 in H.
    apply in_app_or in H as [H|H]; [|apply in_app_or in H as [H|H]].
    - apply in_map_iff in H as (x & E & I). injection E as -> _. apply filter_In in I as [I _].
      revert I. vm_compute. intuition discriminate.
    - apply in_map_iff in H as (x & E & I). injection E as -> _. apply filter_In in I as [I _].
      revert I. vm_compute. intuition discriminate.
    - apply in_flat_map in H as (x & I & E). apply in_map_iff in E as (y & E & _).
      injection E as -> _. apply filter_In in I as [I _].
      revert I. vm_compute. intuition discriminate. }
  revert H. apply B; reflexivity.
Qed.

(** The default run: 82 executions, the bit-distribution test with 1..12. *)
Example C46_case : exists r, dieharder_test_types registry0 = Ok r /\
  length (schedule r 0) = 82%nat /\
  filter (fun p => (fst p =? 201)%Z) (schedule r 0) = [(201%Z, 2); (201%Z, 3); (201%Z, 4); (201%Z, 5)] /\
  filter (fun p => (fst p =? 201)%Z) (schedule r 9) = [(201%Z, 5)].
Proof.
  eexists. split; [rewrite test_types_ok by (vm_compute; reflexivity); reflexivity|].
  repeat split; vm_compute; reflexivity.
Qed.
Print Assumptions C45_listing.
Print Assumptions C45_default_fields.
Print Assumptions C45_flags.
Print Assumptions C45_accepted.
Print Assumptions C45_refused.
Print Assumptions C45_name_refuted.
Print Assumptions C45_twice_refuted.
Print Assumptions C45_default_twice_refuted.
Print Assumptions C46_run_all.
Print Assumptions C46_all_tests.
Print Assumptions C46_user_refuted.
