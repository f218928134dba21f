(** Model of libdieharder/dieharder_rng_types.c, dieharder/add_ui_rngs.c and
    dieharder/list_rngs.c: the table of generators and its listing. *)
From Verif Require Export Base FileModel CliModel.
Open Scope Z_scope.

Definition slots := list (option (list N)).

(** dieharder_rng_types.h:67 [ADD] for one name after another, from slot [i];
    the slot after the last one filled. *)
Fixpoint add_names (names : list (list N)) (i : Z) (t : slots) : outcome (Z * slots) :=
  match names with
  | [] => Ok (i, t)
  | nm :: rest =>
    if i =? MAXRNGS then Exit 134      (* abort() *)
    else do t <- aset t i (Some nm) ;; add_names rest (i + 1) t
  end.

(** dieharder_rng_types.c:61-64: the generators of GSL, without the check. *)
Fixpoint copy_names (names : list (list N)) (i : Z) (t : slots) : outcome slots :=
  match names with
  | [] => Ok t
  | nm :: rest => do t <- aset t i (Some nm) ;; copy_names rest (i + 1) t
  end.

Definition dieharder_names : list (list N) := map bytes_of
  ["stdin_input_raw"; "file_input_raw"; "file_input"; "ca"; "uvag"; "AES_OFB"; "Threefish_OFB";
   "XOR (supergenerator)"; "kiss"; "superkiss"]%string.
Definition R_names : list (list N) := map bytes_of
  ["R_wichmann_hill"; "R_marsaglia_multic."; "R_super_duper"; "R_mersenne_twister";
   "R_knuth_taocp"; "R_knuth_taocp2"]%string.

(** dieharder_rng_types.c:41-165 [dieharder_rng_types].  [gsl]: the names GSL
    reports; the flags tell whether /dev/random, /dev/urandom and /dev/arandom
    can be opened. *)
Definition dieharder_rng_types (gsl : list (list N)) (random urandom arandom : bool) : outcome slots :=
  let t := repeat None (Z.to_nat MAXRNGS) in
  do t <- copy_names gsl 0 t ;;
  do (_, t) <- add_names dieharder_names 200 t ;;
  do (_, t) <- add_names R_names 400 t ;;
  let i := 500 in
  do (i, t) <- (if random then add_names [bytes_of "/dev/random"] i t else Ok (i, t)) ;;
  do (i, t) <- (if urandom then add_names [bytes_of "/dev/urandom"] i t else Ok (i, t)) ;;
  do (i, t) <- (if arandom then add_names [bytes_of "/dev/arandom"] i t else Ok (i, t)) ;;
  Ok t.

(** list_rngs.c: one block, the entries from slot [i] to the first empty one. *)
Fixpoint list_block (fuel : nat) (i : Z) (t : slots) : outcome (list (Z * list N)) :=
  match fuel with
  | O => OutOfFuel
  | S fuel =>
    do o <- aget t i ;;
    match o with
    | None => Ok []
    | Some nm => do l <- list_block fuel (i + 1) t ;; Ok ((i, nm) :: l)
    end
  end.

(** list_rngs.c:17-120 [list_rngs]: the pairs printed, block after block.
    add_ui_rngs (add_ui_rngs.c:17-49) adds nothing but counts one generator, so
    the block from 600 is printed too. *)
Definition list_rngs (t : slots) : outcome (list (Z * list N)) :=
  do a <- list_block 1001 0 t ;;
  do b <- list_block 1001 200 t ;;
  do c <- list_block 1001 400 t ;;
  do d <- list_block 1001 500 t ;;
  do e <- list_block 1001 600 t ;;
  Ok (a ++ b ++ c ++ d ++ e).
