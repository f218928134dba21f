(** Model of what the command line prints before any test is run: -l, -F, -h
    and a bad option (dieharder/parsecl.c:270-323, dieharder/help.c). *)
From Verif Require Export Base FileModel CliModel ListTestsModel.
Open Scope Z_scope.

(** What is printed: the summary of the options, the descriptions of some
    tests (each stands here as its number and short name), the list of the tests,
    the table of the output flags, or nothing: the program goes on. *)
Inductive shown :=
| UsagePage | Descriptions (l : list (Z * list N)) | TestList (l : list (Z * list N * mark)) | FlagTable | GoesOn.

(** help.c:25-29, the loop from [i] for [n] slots. *)
Fixpoint describe_from (t : list (option dtest)) (i : Z) (n : nat) : outcome (list (Z * list N)) :=
  match n with
  | O => Ok []
  | S n => do e <- aget t i ;; do l <- describe_from t (i + 1) n ;;
           Ok (match e with Some d => (i, sname d) :: l | None => l end)
  end.
(** help.c:11-43 [help]; each way ends the program with status 0, in Exit()
    or in Usage() (line 210). *)
Definition help (r : registry) (all : bool) (dtest_num : Z) : outcome shown :=
  do r <- dieharder_test_types r ;;
  if all then do l <- describe_from (r_types r) 0 900 ;; Ok (Descriptions l)
  else if (0 <=? dtest_num) && (dtest_num <? MAXTESTS) then
    do e <- aget (r_types r) dtest_num ;;
    match e with
    | Some d => Ok (Descriptions [(dtest_num, sname d)])
    | None => Ok UsagePage
    end
  else Ok UsagePage.

(** parsecl.c:270-323, what is printed at the end of [parsecl]; the ends of the
    program are those of [CliModel.parsecl].  The test of line 299 never holds (see there). *)
Definition printed (os : list copt) : outcome shown :=
  match os with
  | [] => Ok UsagePage
  | _ =>
    do c <- parse_options cli0 os ;;
    if (0 <? c_err c)%N then Ok UsagePage
    else if c_list c then do l <- list_tests registry0 ;; Ok (TestList l)
    else if c_show c then Ok FlagTable
    else if c_help c then help registry0 (c_all c) (fst (c_test c))
    else Ok GoesOn
  end.
