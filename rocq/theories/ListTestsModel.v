(** Model of the listing of the tests, dieharder -l (dieharder/list_tests.c). *)
From Verif Require Export Base FileModel CliModel.
Open Scope Z_scope.

(** The third column of the listing. *)
Inductive mark := Good | Suspect | DoNotUse.
(** list_tests.c:31-37 *)
Definition mark_of (i : Z) : mark :=
  if (i =? 5) || (i =? 6) || (i =? 7) then Suspect else if i =? 14 then DoNotUse else Good.
(** list_tests.c:28-41, the loop from [i] for [n] slots.  Of a line the number
    after -d, the short name of the test (in place of its title) and the mark
    are kept. *)
Fixpoint list_from (t : list (option dtest)) (i : Z) (n : nat) : outcome (list (Z * list N * mark)) :=
  match n with
  | O => Ok []
  | S n => do e <- aget t i ;; do l <- list_from t (i + 1) n ;;
           Ok (match e with Some d => (i, sname d, mark_of i) :: l | None => l end)
  end.
(** list_tests.c:17-43 [list_tests]: the table is loaded (again), slots 0..899
    are listed. *)
Definition list_tests (r : registry) : outcome (list (Z * list N * mark)) :=
  do r <- dieharder_test_types r ;; list_from (r_types r) 0 900.
