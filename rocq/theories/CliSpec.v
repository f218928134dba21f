(** What a user of the dieharder command line relies on, stated without the
    functions of the model. *)
From Verif Require Import Base FileModel CliModel.
Open Scope N_scope.

(** [s] is a decimal numeral and [n] its value. *)
Definition numeral (s : list N) (n : N) : Prop :=
  s <> [] /\ Forall (fun c => 48 <= c <= 57) s /\
  n = fold_left (fun a c => 10 * a + (c - 48)) s 0.

(** A word that cannot be read as a number: it starts with a letter or an
    underscore. *)
Definition letter (c : N) : Prop := 65 <= c <= 90 \/ c = 95 \/ 97 <= c <= 122.
Definition word (s : list N) : Prop := exists c t, s = c :: t /\ letter c.

(** The output fields and their bits, as printed by dieharder -F. *)
Definition output_fields : list (N * string) :=
  [(1, "header"); (2, "show_rng"); (4, "line_header"); (8, "test_name");
   (16, "ntuple"); (32, "tsamples"); (64, "psamples"); (128, "pvalues");
   (256, "assessment"); (512, "prefix"); (1024, "description");
   (2048, "histogram"); (4096, "seed"); (8192, "rate"); (16384, "show_num");
   (32768, "no_whitespace"); (65536, "psample_values");
   (131072, "file_rng_stat")]%string.
(** The fields shown when nothing is requested. *)
Definition default_fields : list string :=
  ["header"; "show_rng"; "line_header"; "test_name"; "ntuple"; "tsamples";
   "psamples"; "pvalues"; "assessment"; "seed"; "rate"]%string.

(** The -D argument [s] asks for the set of fields [m] (bits): by number, one
    field or several, or by name. *)
Inductive asks : list N -> N -> Prop :=
| asks_number s m : numeral s m -> 0 < m -> m < 2 ^ 18 -> asks s m
| asks_name s m : In (m, s) output_fields -> asks (bytes_of s) m.
(** The same without the one name the program does not know. *)
Inductive asks_known : list N -> N -> Prop :=
| known_number s m : numeral s m -> 0 < m -> m < 2 ^ 18 -> asks_known s m
| known_name s m : In (m, s) output_fields -> s <> "file_rng_stat"%string ->
    asks_known (bytes_of s) m.
(** The -D argument asks for the default. *)
Definition asks_default (s : list N) : Prop := s = bytes_of "default" \/ numeral s 0.

(** Every field is asked for at most once. *)
Definition no_repetition (ms : list N) : Prop :=
  ForallOrdPairs (fun a b => N.land a b = 0) ms.
(** The union of sets of fields. *)
Definition union (ms : list N) : N := fold_right N.lor 0 ms.

(** The arguments of the -D, the -d, the -t options of a command line, in
    order. *)
Definition D_args (os : list copt) : list (list N) :=
  flat_map (fun o => match o with OptD s => [s] | _ => [] end) os.
Definition d_args (os : list copt) : list (list N) :=
  flat_map (fun o => match o with Optd s => [s] | _ => [] end) os.
Definition t_args (os : list copt) : list (list N) :=
  flat_map (fun o => match o with Optt s => [s] | _ => [] end) os.
Definition g_args (os : list copt) : list (list N) :=
  flat_map (fun o => match o with Optg s => [s] | _ => [] end) os.
Definition S_args (os : list copt) : list (list N) :=
  flat_map (fun o => match o with OptS s => [s] | _ => [] end) os.
Definition u_args (u : usetting) (os : list copt) : list (list N) :=
  flat_map (fun o => match o with
                     | OptU v s => if usetting_eqb v u then [s] else []
                     | _ => [] end) os.

(** ** Running all tests *)

(** The numbers first, first+1, … (count of them). *)
Definition numbers (first : Z) (count : N) : list Z :=
  map (fun i => (first + Z.of_nat i)%Z) (seq 0 (N.to_nat count)).
Definition is_registered (r : registry) (num : Z) : bool :=
  match nth_error (r_types r) (Z.to_nat num) with
  | Some (Some _) => true
  | _ => false
  end.

Definition upto (a b : N) : list N := map N.of_nat (seq (N.to_nat a) (N.to_nat (b + 1 - a))).

(** The ntuple values test [num] is run with when the user asked for [nt]
    (0: did not ask): all documented values of the four tests with a range
    when the user did not ask, the value 5 when the value asked for is outside
    the range of the test, the value itself otherwise. *)
Definition ntuples (num : Z) (nt : N) : list N :=
  if nt =? 0 then
    if (num =? 200)%Z then upto 1 12
    else if (num =? 201)%Z then upto 2 5
    else if (num =? 202)%Z then upto 2 5
    else if (num =? 203)%Z then upto 0 32
    else [0]
  else if (num =? 201)%Z && ((nt <? 2) || (5 <? nt)) then [5]
  else if (num =? 202)%Z && (nt <? 2) then [5]
  else [nt].

(** Everything -a executes, in order: the diehard tests, the STS tests, the
    other tests with their ntuples. *)
Definition schedule (r : registry) (nt : N) : list (Z * N) :=
  map (fun num => (num, nt)) (filter (is_registered r) (numbers 0 (r_diehard r))) ++
  map (fun num => (num, nt)) (filter (is_registered r) (numbers 100 (r_sts r))) ++
  flat_map (fun num => map (fun n => (num, n)) (ntuples num nt))
    (filter (is_registered r) (numbers 200 (r_other r))).

(** Executing a list of (test, ntuple) until one of them ends the program. *)
Fixpoint perform (exec : Z -> N -> outcome unit) (l : list (Z * N)) : outcome unit :=
  match l with
  | [] => Ok tt
  | (num, nt) :: t => do _ <- exec num nt ;; perform exec t
  end.
