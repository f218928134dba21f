(** Model of diehard_runs (libdieharder/diehard_runs.c): counting runs up and
    down. *)
From Verif Require Export Tally.
Open Scope N_scope.

(** diehard_runs.c:82-84; upruns and downruns (ints counting at most tsamples
    runs; exact counters here). *)
Record rstate := { r_up : list N; r_down : list N; r_ucount : N; r_dcount : N }.

(** diehard_runs.c:116-131 and 133-143: what follows [if(next > last)], where
    RUN_MAX is 6.  The second copy (133-143) differs only in what is compared. *)
Definition run_step (increase : bool) (s : rstate) : outcome rstate :=
  if increase then
    let uc := r_ucount s + 1 in
    let uc := if 6 <? uc then 6 else uc in
    do down <- bump (r_down s) (Z.of_N (r_dcount s) - 1) ;;
    Ok {| r_up := r_up s; r_down := down; r_ucount := uc; r_dcount := 1 |}
  else
    let dc := r_dcount s + 1 in
    let dc := if 6 <? dc then 6 else dc in
    do up <- bump (r_up s) (Z.of_N (r_ucount s) - 1) ;;
    Ok {| r_up := up; r_down := r_down s; r_ucount := 1; r_dcount := dc |}.

(** diehard_runs.c:107-132: the loop over the remaining numbers; result: the
    state and the last number compared ([next], 0 if there was none). *)
Fixpoint run_loop (rest : list N) (last next : N) (s : rstate) : outcome (rstate * N) :=
  match rest with
  | [] => Ok (s, next)
  | x :: rest =>
    do s <- run_step (last <? x) s ;;
    run_loop rest x x s
  end.

(** diehard_runs.c:77-143.  The numbers drawn: the first, and the tsamples - 1
    others. *)
Definition count_runs (first : N) (rest : list N) : outcome (list N * list N) :=
  let s := {| r_up := repeat 0 6; r_down := repeat 0 6; r_ucount := 1; r_dcount := 1 |} in
  do (s, next) <- run_loop rest first 0 s ;;
  do s <- run_step (first <? next) s ;;
  Ok (r_up s, r_down s).
