(** Models of diehard_count_1s_stream and diehard_count_1s_byte
    (libdieharder/): the letters, the sliding words and the tables.  The
    numbers get_rand_bits_uint(32,...) returns are the stream [g]. *)
From Coq Require Export QArith.
From Verif Require Export Tally NtupleModel.
Open Scope N_scope.

(** diehard_count_1s_stream.c:111-127 [b5s] and diehard_count_1s_byte.c:119-135
    [b5b] (the same numbers). *)
Definition b5 : list N :=
  [0; 0; 0; 0; 0; 0; 0; 1; 0; 0; 0; 1; 0; 1; 1; 2; 0; 0; 0; 1; 0; 1; 1; 2; 0; 1; 1; 2; 1; 2; 2; 3;
   0; 0; 0; 1; 0; 1; 1; 2; 0; 1; 1; 2; 1; 2; 2; 3; 0; 1; 1; 2; 1; 2; 2; 3; 1; 2; 2; 3; 2; 3; 3; 4;
   0; 0; 0; 1; 0; 1; 1; 2; 0; 1; 1; 2; 1; 2; 2; 3; 0; 1; 1; 2; 1; 2; 2; 3; 1; 2; 2; 3; 2; 3; 3; 4;
   0; 1; 1; 2; 1; 2; 2; 3; 1; 2; 2; 3; 2; 3; 3; 4; 1; 2; 2; 3; 2; 3; 3; 4; 2; 3; 3; 4; 3; 4; 4; 4;
   0; 0; 0; 1; 0; 1; 1; 2; 0; 1; 1; 2; 1; 2; 2; 3; 0; 1; 1; 2; 1; 2; 2; 3; 1; 2; 2; 3; 2; 3; 3; 4;
   0; 1; 1; 2; 1; 2; 2; 3; 1; 2; 2; 3; 2; 3; 3; 4; 1; 2; 2; 3; 2; 3; 3; 4; 2; 3; 3; 4; 3; 4; 4; 4;
   0; 1; 1; 2; 1; 2; 2; 3; 1; 2; 2; 3; 2; 3; 3; 4; 1; 2; 2; 3; 2; 3; 3; 4; 2; 3; 3; 4; 3; 4; 4; 4;
   1; 2; 2; 3; 2; 3; 3; 4; 2; 3; 3; 4; 3; 4; 4; 4; 2; 3; 3; 4; 3; 4; 4; 4; 3; 4; 4; 4; 4; 4; 4; 4].

(** diehard_count_1s_stream.c:146, diehard_count_1s_byte.c:156: [LSHIFT5] with unsigned arithmetic. *)
Definition lshift5 (old new : N) : N := add32 (mul32 old 5) new.

(** diehard_count_1s_stream.c:139-144 [ps], diehard_count_1s_byte.c:143-148
    [pb], as the decimal numbers written there (all are exact doubles). *)
Definition ps : list Q :=
  [(144531250 # 1000000000)%Q; (218750000 # 1000000000)%Q; (273437500 # 1000000000)%Q;
   (218750000 # 1000000000)%Q; (144531250 # 1000000000)%Q].

(** diehard_count_1s_stream.c:206-226 and 234-254: the expected count of cell
    [i], over [k] base-5 digits.  Simplification: exact rationals instead of
    doubles. *)
Fixpoint expected (k : nat) (y : Q) (j : N) : outcome Q :=
  match k with
  | O => Ok y
  | S k' => do p <- aget ps (Z.of_N (j mod 5)) ;; expected k' (y * p)%Q (j / 5)
  end.

Section Generator.
Variable g : nat -> N.

(** One byte of the word [i], turned into a letter and shifted into index5. *)
Definition add_letter (index5 i boffset : N) : outcome N :=
  do j <- get_bit_ntuple_from_whole_uint i 8 0x000000FF boffset ;;
  do l <- aget b5 (Z.of_N j) ;;
  Ok (lshift5 index5 l).

Record cstate := { k_x4 : list N; k_x5 : list N; k_index5 : N; k_i : N; k_boffset : N; k_c : nat }.

(** The end of a round: diehard_count_1s_stream.c:385-388,
    diehard_count_1s_byte.c:292-295. *)
Definition tally_word (x4 x5 : list N) (index5 : N) : outcome (list N * list N * N) :=
  let index5 := index5 mod 3125 in
  let index4 := index5 mod 625 in
  do x4 <- bump x4 (Z.of_N index4) ;;
  do x5 <- bump x5 (Z.of_N index5) ;;
  Ok (x4, x5, index5).

(** diehard_count_1s_stream.c:306-388, one round with overlap = 1. *)
Definition stream_step (s : cstate) : outcome cstate :=
  let '(i, boffset, c) :=
    if k_boffset s mod 32 =? 0 then (g (k_c s), 0, S (k_c s)) else (k_i s, k_boffset s, k_c s) in
  do index5 <- add_letter (k_index5 s) i boffset ;;
  let index5 := index5 mod 3125 in
  do (x4, x5, index5) <- tally_word (k_x4 s) (k_x5 s) index5 ;;
  Ok {| k_x4 := x4; k_x5 := x5; k_index5 := index5; k_i := i; k_boffset := add32 boffset 8; k_c := c |}.

(** diehard_count_1s_stream.c:261-302 (the four letters of the first number) and
    304-389. *)
Definition count_stream (tsamples c : nat) : outcome (list N * list N * nat) :=
  let i := g c in
  do j <- get_bit_ntuple_from_whole_uint i 8 0x000000FF 0 ;;
  do index5 <- aget b5 (Z.of_N j) ;;
  do index5 <- add_letter index5 i 8 ;;
  do index5 <- add_letter index5 i 16 ;;
  do index5 <- add_letter index5 i 24 ;;
  do s <- iter_o tsamples stream_step
    {| k_x4 := repeat 0 (N.to_nat 625); k_x5 := repeat 0 (N.to_nat 3125); k_index5 := index5;
       k_i := i; k_boffset := 0; k_c := S c |} ;;
  Ok (k_x4 s, k_x5 s, k_c s).

(** diehard_count_1s_byte.c:268-284: five numbers, one byte of each. *)
Fixpoint byte_letters (n : nat) (index5 boffset : N) (c : nat) : outcome (N * nat) :=
  match n with
  | O => Ok (index5, c)
  | S m => do index5 <- add_letter index5 (g c) boffset ;; byte_letters m index5 boffset (S c)
  end.

(** diehard_count_1s_byte.c:261-296, one round; [k_boffset] is t. *)
Definition byte_step (s : cstate) : outcome cstate :=
  let t := k_boffset s in
  do (index5, c) <- byte_letters 5 (k_index5 s) (t mod 32) (k_c s) ;;
  do (x4, x5, index5) <- tally_word (k_x4 s) (k_x5 s) index5 ;;
  Ok {| k_x4 := x4; k_x5 := x5; k_index5 := index5; k_i := 0; k_boffset := t + 1; k_c := c |}.

Definition count_byte (tsamples c : nat) : outcome (list N * list N * nat) :=
  do s <- iter_o tsamples byte_step
    {| k_x4 := repeat 0 (N.to_nat 625); k_x5 := repeat 0 (N.to_nat 3125); k_index5 := 0;
       k_i := 0; k_boffset := 0; k_c := c |} ;;
  Ok (k_x4 s, k_x5 s, k_c s).
End Generator.
