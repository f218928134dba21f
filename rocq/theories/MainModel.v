(** Model of main() of the dieharder program (dieharder/dieharder.c) and of
    choose_rng (dieharder/choose_rng.c) as far as they decide what is done. *)
From Verif Require Export Base FileModel CliModel RngTableModel.
Open Scope Z_scope.

(** What a run of the program did before it ended. *)
Inductive deed := ListedGenerators | WroteNumbers | RanTests (l : list (Z * N)).

(** The generators and devices of the machine: the names GSL reports, and
    whether /dev/random, /dev/urandom, /dev/arandom open. *)
Record host := mkhost { h_gsl : list (list N); h_random : bool; h_urandom : bool; h_arandom : bool }.

Section Main.
(** execute_test(dtest_num) with the global ntuple *)
Variable exec : Z -> N -> outcome unit.

(** choose_rng.c:60-72, from the return of select_rng on: the deed that ends the
    program there with status 0, if it ends there. *)
Definition choose_rng_end (c : cli) (chosen : option Z) : option deed :=
  match chosen with
  | None => Some ListedGenerators
  | Some _ => if c_ofile c then Some WroteNumbers else None
  end.

(** dieharder.c:20-104 [main]: the deed and the exit status.  Exits inside
    parsecl and the tests are outcome Exit.  Simplified: writing the numbers
    and printing succeed. *)
Definition main (h : host) (os : list copt) : outcome (deed * Z) :=
  do c <- parsecl os ;;
  do rngs <- dieharder_rng_types (h_gsl h) (h_random h) (h_urandom h) (h_arandom h) ;;
  do r <- dieharder_test_types registry0 ;;
  do g <- select_rng rngs (c_gens c) (match c_file c with Some _ => true | None => false end) ;;
  match choose_rng_end c g with
  | Some d => Ok (d, 0)
  | None =>
    let ntuple := c_u c Ntuple in
    if c_all c then do st <- run_all_tests exec r ([], ntuple) ;; Ok (RanTests (rev (fst st)), 0)
    else do num <- run_test r (fst (c_test c)) (snd (c_test c)) ;;
         do _ <- exec num ntuple ;; Ok (RanTests [(num, ntuple)], 0)
  end.
End Main.
