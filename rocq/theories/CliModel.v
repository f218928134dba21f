(** Model of the command line of the dieharder program: parsing of the
    options (dieharder/parsecl.c), the output flags (dieharder/output.h),
    the table of tests (libdieharder/dieharder_test_types.c), the selection
    of one test (dieharder/run_test.c) and the run of all tests
    (dieharder/run_all_tests.c). *)
From Verif Require Import Base FileModel.
Open Scope N_scope.

(** ** C library functions on strings

    Strings are lists of character codes without the terminating NUL. *)

(** strncmp(a,b,n) == 0. *)
Fixpoint strneq (n : nat) (a b : list N) : bool :=
  match n with
  | O => true
  | S m => match a, b with
           | [], [] => true
           | x :: a', y :: b' => (x =? y) && strneq m a' b'
           | _, _ => false
           end
  end.

Definition is_digit (c : N) : bool := (48 <=? c) && (c <=? 57).

(** The longest run of decimal digits: its value and what follows. *)
Fixpoint digits10 (l : list N) (acc : N) : N * list N :=
  match l with
  | c :: t => if is_digit c then digits10 t (10 * acc + (c - 48)) else (acc, l)
  | [] => (acc, [])
  end.

(** The range of long (64 bits) is not left: strtol returns the nearest
    bound (C11 7.22.1.4p8). *)
Definition clamp_long (z : Z) : Z :=
  (if z <? - 2 ^ 63 then - 2 ^ 63 else if 2 ^ 63 - 1 <? z then 2 ^ 63 - 1 else z)%Z.

(** strtol(s,&endptr,10): the value and the rest of the string endptr points
    to; endptr is s itself when there is no number (C11 7.22.1.4p7). *)
Definition strtol (s : list N) : Z * list N :=
  let t := skip_space s in
  let (neg, t1) := match t with
                   | c :: r => if c =? 43 then (false, r)
                               else if c =? 45 then (true, r) else (false, t)
                   | [] => (false, t)
                   end in
  match t1 with
  | c :: _ => if is_digit c
              then let (v, rest) := digits10 t1 0 in
                   (clamp_long (if neg then - Z.of_N v else Z.of_N v)%Z, rest)
              else (0%Z, s)
  | [] => (0%Z, s)
  end.

(** Conversion of a long to int: modulo 2^32, as gcc defines it. *)
Definition to_int (z : Z) : Z := ((z + 2 ^ 31) mod 2 ^ 32 - 2 ^ 31)%Z.

(** strncmp(optarg,endptr,1) == 0: the test parsecl uses for "no number". *)
Definition same_start (s rest : list N) : bool := strneq 1 s rest.

(** ** Output flags *)

(** dieharder/output.h:29 and 38-58: TCNT and table_fields[]. *)
Definition TCNT : nat := 18.
Definition TLENGTH : nat := 16.
Definition table_fields : list (list N) :=
  map bytes_of
    ["default"; "header"; "show_rng"; "line_header"; "test_name"; "ntuple";
     "tsamples"; "psamples"; "pvalues"; "assessment"; "prefix"; "description";
     "histogram"; "seed"; "rate"; "show_num"; "no_whitespace";
     "psample_values"; "file_rng_stat"]%string.

(** dieharder/set_globals.c:44-46 with the values of output.h:8-27. *)
Definition tflag_default : N :=
  1 + 2 + 4 + 8 + 16 + 64 + 32 + 128 + 256 + 8192 + 4096.

(** parsecl.c:83-98: the loop over the first TCNT names; None when it ends
    with i == TCNT. *)
Fixpoint find_field (fields : list (list N)) (i : nat) (s : list N) : option nat :=
  match fields with
  | [] => None
  | f :: t => if strneq TLENGTH s f then Some i else find_field t (S i) s
  end.

(** parsecl.c:69-118, case 'D'.  The state is (tflag, tflag_tmp). *)
Definition option_D (st : N * Z) (optarg : list N) : outcome (N * Z) :=
  let (tflag, _) := st in
  let (z, rest) := strtol optarg in
  let tmp := to_int z in
  do r <- (match rest with
           | [] => Ok (tflag, tmp)
           | _ :: _ => match find_field (firstn TCNT table_fields) 0 optarg with
                       | None => Exit 1
                       | Some O => Ok (tflag_default, tmp)
                       | Some (S k) => Ok (tflag, 2 ^ Z.of_nat k)%Z
                       end
           end) ;;
  let (tflag', tmp') := r in
  if (tmp' =? 0)%Z then Ok (tflag_default, tmp')
  else Ok (add32 tflag' (u32_of_Z tmp'), tmp').

(** parsecl.c:312-318: the lines printed by -F, (number, name). *)
Definition flag_listing : list (N * list N) :=
  (0, nth 0 table_fields []) ::
  map (fun i => (2 ^ N.of_nat i, nth (S i) table_fields [])) (seq 0 TCNT).

(** ** Tests and generators *)

(** parsecl.c:129,140,157: the number of characters copied from a name. *)
Definition name_length : nat := 128.

(** strncpy(dest,src,n) on the string visible afterwards: at most n
    characters (a string of n or more characters is left unterminated). *)
Definition strncpy (n : nat) (s : list N) : list N := firstn n s.

(** parsecl.c:119-137, case 'd'.  The state is (dtest_num, dtest_name); the
    name is terminated at position 127. *)
Definition option_d (st : Z * list N) (optarg : list N) : Z * list N :=
  let (z, rest) := strtol optarg in
  if same_start optarg rest then (fst st, firstn 127 (strncpy name_length optarg))
  else (to_int z, snd st).

(** The generator part of the settings: gen_tmp, gnames, gnumbs, gvcount,
    gseeds, gscount and Seed. *)
Record gens := mkgens {
  g_tmp : Z; g_names : list (list N); g_numbs : list N; g_vcount : N;
  g_seeds : list N; g_scount : N; g_Seed : N }.

(** dieharder/globals.c:48-53 and set_globals.c:29-32,40: the start values. *)
Definition gens0 : gens :=
  mkgens 17 (repeat [] 100) (13 :: repeat 0 99) 0 (repeat 0 100) 0 0.

(** parsecl.c:155-164, case 'g'.  A write past the end of a vector is
    undefined. *)
Definition option_g (g : gens) (optarg : list N) : outcome gens :=
  let (z, rest) := strtol optarg in
  let tmp := to_int z in
  if same_start optarg rest then
    do names <- aset (g_names g) (Z.of_N (g_vcount g)) (strncpy name_length optarg) ;;
    Ok (mkgens tmp names (g_numbs g) (add32 (g_vcount g) 1) (g_seeds g) (g_scount g) (g_Seed g))
  else
    do numbs <- aset (g_numbs g) (Z.of_N (g_vcount g)) (u32_of_Z tmp) ;;
    Ok (mkgens tmp (g_names g) numbs (add32 (g_vcount g) 1) (g_seeds g) (g_scount g) (g_Seed g)).

(** parsecl.c:210-214, case 'S'. *)
Definition option_S (g : gens) (optarg : list N) : outcome gens :=
  let Seed := u32_of_Z (fst (strtol optarg)) in
  do seeds <- aset (g_seeds g) (Z.of_N (g_scount g)) (u32_of_Z (g_tmp g)) ;;
  Ok (mkgens (g_tmp g) (g_names g) (g_numbs g) (g_vcount g) seeds (add32 (g_scount g) 1) Seed).

(** parsecl.c:218-233, case 't': tsamples (a 64-bit number) through the int
    itmp. *)
Definition option_t (tsamples : N) (optarg : list N) : N :=
  let itmp := to_int (fst (strtol optarg)) in
  if (0 <=? itmp)%Z then Z.to_N itmp else tsamples.

(** The unsigned int settings assigned by a single strtol (parsecl.c:168-217,
    249): -i iterations, -k ks_test, -L overlap, -n ntuple, -O output_format,
    -P Xoff, -p psamples, -v verbose, -Y Xtrategy. *)
Inductive usetting := Iterations | Ks_test | Overlap | Ntuple | Output_format
                    | XOff | Psamples | Verbose | XTrategy.
Definition usetting_eqb (a b : usetting) : bool :=
  match a, b with
  | Iterations, Iterations | Ks_test, Ks_test | Overlap, Overlap
  | Ntuple, Ntuple | Output_format, Output_format | XOff, XOff
  | Psamples, Psamples | Verbose, Verbose | XTrategy, XTrategy => true
  | _, _ => false
  end.

(** One option as getopt delivers it. *)
Inductive copt :=
| OptAll                                  (* -a *)
| OptB                                    (* -B *)
| OptC (optarg : list N)                  (* -c *)
| OptD (optarg : list N)                  (* -D *)
| Optd (optarg : list N)                  (* -d *)
| OptF                                    (* -F *)
| Optf (optarg : list N)                  (* -f *)
| Optg (optarg : list N)                  (* -g *)
| Opth                                    (* -h *)
| Optl                                    (* -l *)
| Opto                                    (* -o *)
| OptS (optarg : list N)                  (* -S *)
| Opts (optarg : list N)                  (* -s *)
| Optt (optarg : list N)                  (* -t *)
| OptV                                    (* -V *)
| OptU (u : usetting) (optarg : list N)   (* -i -k -L -n -O -P -p -v -Y *)
| OptDouble (c : N) (optarg : list N)     (* -m -W -X -x -y -z: strtod, not modelled *)
| OptZ (optarg : list N)                  (* -Z: accepted by getopt, no case *)
| OptBad.                                 (* '?' *)

(** The settings parsecl changes. *)
Record cli := mkcli {
  c_all : bool; c_sep : N; c_flags : N * Z; c_test : Z * list N;
  c_show : bool; c_file : option (list N); c_gens : gens; c_help : bool;
  c_list : bool; c_ofile : bool; c_strategy : Z; c_tsamples : N;
  c_u : usetting -> N; c_err : N }.

(** set_globals.c: the start values.  iterations = -1 is the largest
    unsigned int. *)
Definition u0 (u : usetting) : N :=
  match u with
  | Iterations => 4294967295 | Ks_test => 0 | Overlap => 1 | Ntuple => 0
  | Output_format => 1 | XOff => 100000 | Psamples => 0 | Verbose => 0
  | XTrategy => 0
  end.
Definition cli0 : cli :=
  mkcli false 124 (0, 0%Z) ((-1)%Z, []) false None gens0 false false false 0 0 u0 0.

Definition set_flags (c : cli) x := mkcli (c_all c) (c_sep c) x (c_test c) (c_show c) (c_file c)
  (c_gens c) (c_help c) (c_list c) (c_ofile c) (c_strategy c) (c_tsamples c) (c_u c) (c_err c).
Definition set_test (c : cli) x := mkcli (c_all c) (c_sep c) (c_flags c) x (c_show c) (c_file c)
  (c_gens c) (c_help c) (c_list c) (c_ofile c) (c_strategy c) (c_tsamples c) (c_u c) (c_err c).
Definition set_gens (c : cli) x := mkcli (c_all c) (c_sep c) (c_flags c) (c_test c) (c_show c) (c_file c)
  x (c_help c) (c_list c) (c_ofile c) (c_strategy c) (c_tsamples c) (c_u c) (c_err c).
Definition set_tsamples (c : cli) x := mkcli (c_all c) (c_sep c) (c_flags c) (c_test c) (c_show c) (c_file c)
  (c_gens c) (c_help c) (c_list c) (c_ofile c) (c_strategy c) x (c_u c) (c_err c).
Definition set_u (c : cli) x := mkcli (c_all c) (c_sep c) (c_flags c) (c_test c) (c_show c) (c_file c)
  (c_gens c) (c_help c) (c_list c) (c_ofile c) (c_strategy c) (c_tsamples c) x (c_err c).

Definition assign (f : usetting -> N) (u : usetting) (v : N) : usetting -> N :=
  fun x => if usetting_eqb x u then v else f x.

(** parsecl.c:55-267: one turn of the getopt loop. *)
Definition parse_option (c : cli) (o : copt) : outcome cli :=
  match o with
  | OptAll => Ok (mkcli true (c_sep c) (c_flags c) (c_test c) (c_show c) (c_file c)
      (c_gens c) (c_help c) (c_list c) (c_ofile c) (c_strategy c) (c_tsamples c) (c_u c) (c_err c))
  | OptB => Ok (set_u c (assign (c_u c) Output_format 0))
  | OptC s => Ok (mkcli (c_all c) (hd 0 s) (c_flags c) (c_test c) (c_show c) (c_file c)
      (c_gens c) (c_help c) (c_list c) (c_ofile c) (c_strategy c) (c_tsamples c) (c_u c) (c_err c))
  | OptD s => do f <- option_D (c_flags c) s ;; Ok (set_flags c f)
  | Optd s => Ok (set_test c (option_d (c_test c) s))
  | OptF => Ok (mkcli (c_all c) (c_sep c) (c_flags c) (c_test c) true (c_file c)
      (c_gens c) (c_help c) (c_list c) (c_ofile c) (c_strategy c) (c_tsamples c) (c_u c) (c_err c))
  | Optf s => Ok (mkcli (c_all c) (c_sep c) (c_flags c) (c_test c) (c_show c)
      (Some (strncpy name_length s))
      (c_gens c) (c_help c) (c_list c) (c_ofile c) (c_strategy c) (c_tsamples c) (c_u c) (c_err c))
  | Optg s => do g <- option_g (c_gens c) s ;; Ok (set_gens c g)
  | Opth => Ok (mkcli (c_all c) (c_sep c) (c_flags c) (c_test c) (c_show c) (c_file c)
      (c_gens c) true (c_list c) (c_ofile c) (c_strategy c) (c_tsamples c) (c_u c) (c_err c))
  | Optl => Ok (mkcli (c_all c) (c_sep c) (c_flags c) (c_test c) (c_show c) (c_file c)
      (c_gens c) (c_help c) true (c_ofile c) (c_strategy c) (c_tsamples c) (c_u c) (c_err c))
  | Opto => Ok (mkcli (c_all c) (c_sep c) (c_flags c) (c_test c) (c_show c) (c_file c)
      (c_gens c) (c_help c) (c_list c) true (c_strategy c) (c_tsamples c) (c_u c) (c_err c))
  | OptS s => do g <- option_S (c_gens c) s ;; Ok (set_gens c g)
  | Opts s => Ok (mkcli (c_all c) (c_sep c) (c_flags c) (c_test c) (c_show c) (c_file c)
      (c_gens c) (c_help c) (c_list c) (c_ofile c) (fst (strtol s)) (c_tsamples c) (c_u c) (c_err c))
  | Optt s => Ok (set_tsamples c (option_t (c_tsamples c) s))
  | OptV => Exit 0
  | OptU u s => Ok (set_u c (assign (c_u c) u (u32_of_Z (fst (strtol s)))))
  | OptDouble _ _ => Ok c
  | OptZ _ => Ok c
  | OptBad => Ok (mkcli (c_all c) (c_sep c) (c_flags c) (c_test c) (c_show c) (c_file c)
      (c_gens c) (c_help c) (c_list c) (c_ofile c) (c_strategy c) (c_tsamples c) (c_u c) (c_err c + 1))
  end.

Fixpoint parse_options (c : cli) (os : list copt) : outcome cli :=
  match os with
  | [] => Ok c
  | o :: t => do c' <- parse_option c o ;; parse_options c' t
  end.

(** parsecl.c:46-350.  No argument at all prints the usage and exits with 1;
    a bad option exits with 0; -l, -F and -h print and exit with 0 (Exit()
    and help() end the program); the comparison [generator == -1] of line 306
    is never true, as nothing assigns generator.  Options only: a command
    line with further arguments (argc-optind != 0) is not modelled. *)
Definition parsecl (os : list copt) : outcome cli :=
  match os with
  | [] => Exit 1
  | _ =>
    do c <- parse_options cli0 os ;;
    if 0 <? c_err c then Exit 0
    else if c_list c then Exit 0
    else if c_show c then Exit 0
    else if c_help c then Exit 0
    else if (snd (c_flags c) =? 0)%Z then Ok (set_flags c (tflag_default, snd (c_flags c)))
    else Ok c
  end.

(** ** The table of tests *)

(** include/dieharder/Dtest.h, the fields used here, and the definitions in
    include/dieharder/*.h named by libdieharder/dieharder_test_types.c. *)
Record dtest := mkdtest { sname : list N; psamples_std : N; tsamples_std : N; nkps : N }.
Definition mkd (s : string) (p t k : N) := mkdtest (bytes_of s) p t k.

Definition diehard_tests : list dtest :=
  [mkd "diehard_birthdays" 100 100 1; mkd "diehard_operm5" 100 1000000 1;
   mkd "diehard_rank_32x32" 100 40000 1; mkd "diehard_rank_6x8" 100 100000 1;
   mkd "diehard_bitstream" 100 2097152 1; mkd "diehard_opso" 100 2097152 1;
   mkd "diehard_oqso" 100 2097152 1; mkd "diehard_dna" 100 2097152 1;
   mkd "diehard_count_1s_stream" 100 256000 1; mkd "diehard_count_1s_byte" 100 256000 1;
   mkd "diehard_parking_lot" 100 0 1; mkd "diehard_2dsphere" 100 8000 1;
   mkd "diehard_3dsphere" 100 4000 1; mkd "diehard_squeeze" 100 100000 1;
   mkd "diehard_sums" 100 100 1; mkd "diehard_runs" 100 100000 2;
   mkd "diehard_craps" 100 200000 2; mkd "marsaglia_tsang_gcd" 100 10000000 2].
Definition sts_tests : list dtest :=
  [mkd "sts_monobit" 100 100000 1; mkd "sts_runs" 100 100000 1; mkd "sts_serial" 100 100000 30].
Definition other_tests : list dtest :=
  [mkd "rgb_bitdist" 100 100000 1; mkd "rgb_minimum_distance" 1000 10000 1;
   mkd "rgb_permutations" 100 100000 1; mkd "rgb_lagged_sum" 100 1000000 1;
   mkd "rgb_kstest_test" 1000 10000 1; mkd "dab_bytedistrib" 1 51200000 1;
   mkd "dab_dct" 1 50000 1; mkd "dab_filltree" 1 15000000 2;
   mkd "dab_filltree2" 1 5000000 2; mkd "dab_monobit2" 1 65000000 1;
   mkd "dab_birthdays1" 1 2000 1; mkd "dab_opso2" 1 67108864 2].

(** include/dieharder/dieharder_test_types.h:33. *)
Definition MAXTESTS : Z := 1000.

(** dh_test_types[] and the four counters. *)
Record registry := mkreg {
  r_types : list (option dtest); r_diehard : N; r_sts : N; r_other : N; r_user : N }.

(** The storage before the first call: all zero. *)
Definition registry0 : registry := mkreg (repeat None 1000) 0 0 0 0.

(** dieharder_test_types.h:41, ADD_TEST: i == MAXTESTS aborts (a stop of the
    program, here Exit 134). *)
Definition add_test (st : list (option dtest) * Z) (t : dtest) : outcome (list (option dtest) * Z) :=
  let (l, i) := st in
  if (i =? MAXTESTS)%Z then Exit 134
  else do l' <- aset l i (Some t) ;; Ok (l', i + 1)%Z.
Fixpoint add_tests (l : list (option dtest)) (i : Z) (ts : list dtest) : outcome (list (option dtest)) :=
  match ts with
  | [] => Ok l
  | t :: r => do st <- add_test (l, i) t ;; add_tests (fst st) (snd st) r
  end.
Definition plus_tests (n : N) (ts : list dtest) : N :=
  fold_left (fun n _ => add32 n 1) ts n.

(** dieharder_test_types.c:30-170: the diehard counter is reset, the sts and
    other counters are not. *)
Definition dieharder_test_types (r : registry) : outcome registry :=
  let l := repeat None (length (r_types r)) in
  do l <- add_tests l 0 diehard_tests ;;
  do l <- add_tests l 100 sts_tests ;;
  do l <- add_tests l 200 other_tests ;;
  Ok (mkreg l (plus_tests 0 diehard_tests) (plus_tests (r_sts r) sts_tests)
        (plus_tests (r_other r) other_tests) (r_user r)).

(** dieharder/add_ui_tests.c:16-47 (not called by main). *)
Definition add_ui_tests (user : dtest) (r : registry) : outcome registry :=
  do l <- add_tests (r_types r) 600 [user] ;;
  Ok (mkreg l (r_diehard r) (r_sts r) (r_other r) 1).

(** ** Running one test *)

(** run_test.c:19-30: the first registered test with the name. *)
Fixpoint find_test (l : list (option dtest)) (i : Z) (name : list N) : option Z :=
  match l with
  | [] => None
  | Some t :: r => if strneq 128 (sname t) name then Some i else find_test r (i + 1) name
  | None :: r => find_test r (i + 1) name
  end.

(** run_test.c:9-38: the number of the test handed to execute_test, or
    exit(1). *)
Definition run_test (r : registry) (dtest_num : Z) (dtest_name : list N) : outcome Z :=
  let num := if (dtest_num <? 0)%Z
             then match find_test (r_types r) 0 dtest_name with
                  | Some i => i
                  | None => dtest_num
                  end
             else dtest_num in
  if ((0 <=? num) && (num <? MAXTESTS))%Z then
    do t <- aget (r_types r) num ;;
    match t with
    | Some _ => Ok num
    | None => Exit 1
    end
  else Exit 1.

(** ** Running all tests *)

Section RunAll.
(** execute_test(dtest_num) with the global ntuple: a test may end the
    program; no test assigns the global ntuple. *)
Variable exec : Z -> N -> outcome unit.

(** What has been executed so far (latest first) and the global ntuple. *)
Definition trace := list (Z * N).
Definition rstate := (trace * N)%type.

Definition execute (num : Z) (st : rstate) : outcome rstate :=
  let (tr, nt) := st in
  do _ <- exec num nt ;; Ok ((num, nt) :: tr, nt).

(** if(dh_test_types[dtest_num]) execute_test(dtest_num); *)
Definition registered (r : registry) (num : Z) : outcome bool :=
  do t <- aget (r_types r) num ;; Ok (match t with Some _ => true | None => false end).
Definition execute_if (r : registry) (num : Z) (st : rstate) : outcome rstate :=
  do b <- registered r num ;; if b then execute num st else Ok st.

(** for(ntuple = ntmin; ntuple <= ntmax; ntuple++) execute_test(dtest_num); *)
Fixpoint ntuple_loop (fuel : nat) (num : Z) (ntmax : N) (st : rstate) : outcome rstate :=
  match fuel with
  | O => OutOfFuel
  | S f => let (tr, nt) := st in
           if nt <=? ntmax then
             do st' <- execute num (tr, nt) ;;
             ntuple_loop f num ntmax (fst st', add32 (snd st') 1)
           else Ok st
  end.
Definition ntuple_range (num : Z) (ntmin ntmax : N) (st : rstate) : outcome rstate :=
  do st' <- ntuple_loop 100 num ntmax (fst st, ntmin) ;; Ok (fst st', 0).

(** ntsave = ntuple; ntuple = 5; execute_test(); ntuple = ntsave;  The
    conversion to the int ntsave and back gives the same value. *)
Definition with_five (num : Z) (st : rstate) : outcome rstate :=
  do st' <- execute num (fst st, 5) ;; Ok (fst st', snd st).

(** run_all_tests.c:57-253: one turn of the loop over the other tests. *)
Definition run_other (r : registry) (num : Z) (st : rstate) : outcome rstate :=
  let nt := snd st in
  match num with
  | 200%Z => do b <- registered r num ;;
      if b then (if nt =? 0 then ntuple_range num 1 12 st else execute num st) else Ok st
  | 201%Z => do b <- registered r num ;;
      if b then (if nt =? 0 then ntuple_range num 2 5 st
                 else if (nt <? 2) || (5 <? nt) then with_five num st
                 else execute num st) else Ok st
  | 202%Z => do b <- registered r num ;;
      if b then (if nt =? 0 then ntuple_range num 2 5 st
                 else if nt <? 2 then with_five num st
                 else execute num st) else Ok st
  | 203%Z => do b <- registered r num ;;
      if b then (if nt =? 0 then ntuple_range num 0 32 st else execute num st) else Ok st
  | _ => execute_if r num st
  end.

(** for(dtest_num = first; dtest_num < first + count; dtest_num++) *)
Fixpoint num_loop (body : Z -> rstate -> outcome rstate) (count : nat) (num : Z) (st : rstate)
  : outcome rstate :=
  match count with
  | O => Ok st
  | S k => do st' <- body num st ;; num_loop body k (num + 1) st'
  end.

(** run_all_tests.c:19-266. *)
Definition run_all_tests (r : registry) (st : rstate) : outcome rstate :=
  do st <- num_loop (execute_if r) (N.to_nat (r_diehard r)) 0 st ;;
  do st <- num_loop (execute_if r) (N.to_nat (r_sts r)) 100 st ;;
  num_loop (run_other r) (N.to_nat (r_other r)) 200 st.
End RunAll.

(** ** Choosing the generator *)

(** include/dieharder/dieharder_rng_types.h: MAXRNGS. *)
Definition MAXRNGS : Z := 1000.

(** choose_rng.c:115-124: the first of the 1000 slots whose name agrees with
    gnames[0] in 20 characters. *)
Fixpoint find_rng (l : list (option (list N))) (i : Z) (name : list N) : option Z :=
  match l with
  | [] => None
  | Some nm :: r => if strneq 20 nm name then Some i else find_rng r (i + 1) name
  | None :: r => find_rng r (i + 1) name
  end.

(** choose_rng.c:99-168: the number of the generator allocated, None when
    select_rng returns -1 (choose_rng lists the generators and exits).
    [rngs] is dh_rng_types[] with the names only; [fromfile] tells whether -f
    was given. *)
Definition select_rng (rngs : list (option (list N))) (g : gens) (fromfile : bool)
  : outcome (option Z) :=
  do n0 <- aget (g_numbs g) 0 ;;
  if ((to_int (Z.of_N n0) <? 0) || (MAXRNGS <=? to_int (Z.of_N n0)))%Z then Ok None
  else
    do name0 <- aget (g_names g) 0 ;;
    do num <- (match name0 with
               | _ :: _ => Ok (find_rng rngs 0 name0)
               | [] => do t <- aget rngs (Z.of_N n0) ;;
                       match t with
                       | Some (_ :: _) => Ok (Some (Z.of_N n0))
                       | Some [] => Ok None
                       | None => Ok None
                       end
               end) ;;
    match num with
    | None => Ok None
    | Some i =>
        do t <- aget rngs i ;;
        match t with
        | Some nm => if starts_with (bytes_of "file_input") nm && negb fromfile
                     then Ok None else Ok (Some i)
        | None => UB "null pointer"
        end
    end.
