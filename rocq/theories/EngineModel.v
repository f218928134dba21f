(** Model of the test engine: libdieharder/std_test.c (create_test,
    clear_test, add_2_test, std_test) and dieharder/run_test.c (execute_test).

    What a statistical test computes is not modelled here: its [c]-th execution
    stores the p-value [res c j] for statistic [j].  Likewise the value the
    Kolmogorov-Smirnov routines compute from the sorted p-values is the
    function [ksf], and the order gsl_sort leaves them in is [srt]. *)
From Verif Require Export Base DoubleModel.
Open Scope N_scope.

(** The command-line settings and test description the engine reads
    (set_globals.c, parsecl.c, Dtest.h). *)
Record config := {
  c_all : bool;        (* all == YES *)
  c_psamples : N;      (* -p, 0 when not given *)
  c_stdps : N;         (* dtest->psamples_std*multiply_p, converted to uint *)
  c_nkps : nat;        (* dtest->nkps *)
  c_strategy : N;      (* Xtrategy: 0, 1 resolve ambiguity, 2 test to destruction *)
  c_xoff : N;
  c_xstep : N;
  c_xweak : double;
  c_xfail : double;
  c_kuiper : bool      (* ks_test >= 3 *)
}.

(** The part of struct Test the engine uses. *)
Record stat := { s_ps : N; s_ks : double; s_pv : list double }.

(** std_test.c:88-93 *)
Definition wanted (cfg : config) : N :=
  if c_all cfg || (c_psamples cfg =? 0)
  then (if c_stdps cfg <? 1 then 1 else c_stdps cfg)
  else c_psamples cfg.

(** std_test.c:103-113: the size of the pvalues vector. *)
Definition pcutoff (cfg : config) (ps : N) : N :=
  if negb (c_strategy cfg =? 0) && (ps <? c_xoff cfg) then c_xoff cfg else ps.

(** std_test.c:46-132 *)
Definition create_test (cfg : config) : list stat :=
  let ps := wanted cfg in
  repeat {| s_ps := ps; s_ks := dzero; s_pv := repeat dzero (N.to_nat (pcutoff cfg ps)) |}
         (c_nkps cfg).

(** std_test.c:174-196 (the global psamples is what create_test was given) *)
Definition clear_test (cfg : config) (ts : list stat) : list stat :=
  map (fun t => {| s_ps := if c_all cfg || (c_psamples cfg =? 0) then c_stdps cfg
                           else c_psamples cfg;
                   s_ks := dzero; s_pv := s_pv t |}) ts.

Section Engine.
Variable cfg : config.
Variable res : nat -> nat -> double.
Variable ksf : list double -> double.
Variable srt : list double -> list double.

(** kstest.c:23-34 and 350-377: both routines return the p-value itself when
    there is one, and sort the p-values in place otherwise; kstest returns -1
    for none.  [count] is an int there. *)
Definition ks_call (pv : list double) (count : N) : outcome (double * list double) :=
  if 2 ^ 31 <=? count then
    (if c_kuiper cfg then UB "negative count" else Ok (dminus1, pv))
  else if (count =? 0) && negb (c_kuiper cfg) then Ok (dminus1, pv)
  else if count =? 1 then do p <- aget pv 0 ;; Ok (p, pv)
  else if (length pv <? N.to_nat count)%nat then UB "array index"
  else let sorted := srt (firstn (N.to_nat count) pv) in
       Ok (ksf sorted, sorted ++ skipn (N.to_nat count) pv).

(** dtest->test(test,i): the [c]-th execution stores its p-values at index i. *)
Fixpoint store (c j : nat) (i : N) (ts : list stat) : outcome (list stat) :=
  match ts with
  | [] => Ok []
  | t :: ts' =>
    do pv <- aset (s_pv t) (Z.of_N i) (res c j) ;;
    do r <- store c (S j) i ts' ;;
    Ok ({| s_ps := s_ps t; s_ks := s_ks t; s_pv := pv |} :: r)
  end.

(** std_test.c:229-231, [n] rounds from index [i] on. *)
Fixpoint rounds (n : nat) (i : N) (s : nat * list stat) : outcome (nat * list stat) :=
  match n with
  | O => Ok s
  | S m =>
    do ts <- store (fst s) 0 i (snd s) ;;
    rounds m (i + 1) (S (fst s), ts)
  end.

(** std_test.c:233-252 *)
Fixpoint recount (count : N) (ts : list stat) : outcome (list stat) :=
  match ts with
  | [] => Ok []
  | t :: ts' =>
    let ps := add32 (s_ps t) count in
    do (p, pv) <- ks_call (s_pv t) ps ;;
    do r <- recount count ts' ;;
    Ok ({| s_ps := ps; s_ks := p; s_pv := pv |} :: r)
  end.

(** std_test.c:215-255; [fst s] counts the executions of the test so far. *)
Definition add_2_test (count : N) (s : nat * list stat) : outcome (nat * list stat) :=
  match snd s with
  | [] => UB "test[0]"
  | t0 :: _ =>
    let imax := add32 (s_ps t0) count in
    let imax := if c_xoff cfg <? imax then c_xoff cfg else imax in
    let count := sub32 imax (s_ps t0) in
    do (c, ts) <- rounds (N.to_nat (imax - s_ps t0)) (s_ps t0) s ;;
    do ts <- recount count ts ;;
    Ok (c, ts)
  end.

(** std_test.c:279-281 *)
Definition pmax (ts : list stat) : double :=
  fold_left (fun m t => if dgt (s_ks t) m then s_ks t else m) ts dzero.

(** std_test.c:266-295 *)
Definition std_test (s : nat * list stat) : outcome (nat * list stat) :=
  match snd s with
  | [] => UB "test[0]"
  | t0 :: _ =>
    if deq (pmax (snd s)) dzero then
      add_2_test (s_ps t0)
        (fst s, map (fun t => {| s_ps := 0; s_ks := s_ks t; s_pv := s_pv t |}) (snd s))
    else add_2_test (c_xstep cfg) s
  end.

(** [0.5 - fabs(p - 0.5)] (run_test.c:96-97) *)
Definition tail (p : double) : double := dsub dhalf (dabs (dsub p dhalf)).

(** run_test.c:94-99 *)
Definition smallest_p (ts : list stat) : double :=
  fold_left (fun m t => if dlt (tail (s_ks t)) m then tail (s_ks t) else m) ts dhalf.

(** run_test.c:100-133 *)
Definition need_more (ts : list stat) : bool :=
  let sp := smallest_p ts in
  let full := match ts with [] => true | t :: _ => c_xoff cfg <=? s_ps t end in
  if c_strategy cfg =? 1 then
    negb (dlt sp (c_xfail cfg)) && negb (dge sp (c_xweak cfg)) && negb full
  else if c_strategy cfg =? 2 then
    negb (dlt sp (c_xfail cfg)) && negb full
  else false.

(** run_test.c:90-134.  The result lists what output() was called with, round
    by round: the test vector after each std_test. *)
Fixpoint exec_loop (fuel : nat) (s : nat * list stat) : outcome (list (list stat)) :=
  match fuel with
  | O => OutOfFuel
  | S f =>
    do s <- std_test s ;;
    if need_more (snd s) then
      do rest <- exec_loop f s ;; Ok (snd s :: rest)
    else Ok [snd s]
  end.

(** run_test.c:41-140 (reseeding, 56-70, concerns the generator only) *)
Definition execute_test (fuel : nat) : outcome (list (list stat)) :=
  exec_loop fuel (O, create_test cfg).

End Engine.
