(** Models of the missing-word tests: diehard_opso, diehard_oqso, diehard_dna,
    diehard_bitstream and dab_opso2 (libdieharder/).  Only the counting is
    modelled; the normal approximation (Xtest_eval) is not.

    The generator is the stream [g] of its results and a state is the number of
    results drawn.  The big tables are functions from the (flattened) index to
    the value of the cell; every access is checked against the bounds first. *)
From Verif Require Export Base NtupleModel.
Open Scope N_scope.

Definition table := N -> N.
Definition cleared : table := fun _ => 0.
Definition put (w : table) (i v : N) : table := fun k => if k =? i then v else w k.

(** [w[i0][i1]... = f(w[i0][i1]...)] for an array of [dim]-sized dimensions. *)
Fixpoint flat (dim : N) (idx : list N) (acc : N) : outcome N :=
  match idx with
  | [] => Ok acc
  | i :: r => if i <? dim then flat dim r (acc * dim + i) else UB "array index"
  end.
Definition update (dim : N) (idx : list N) (f : N -> N) (w : table) : outcome table :=
  do k <- flat dim idx 0 ;; Ok (put w k (f (w k))).

(** [w++] on a char: the value modulo 256 (only its being zero matters, so the
    signedness of char does not). *)
Definition char_incr (v : N) : N := (v + 1) mod 256.

(** Sum of [f] over 0..n-1: the loops that count the holes. *)
Definition Nsum (n : N) (f : N -> N) : N := N.recursion 0 (fun j acc => acc + f j) n.
Definition hole (v : N) : N := if v =? 0 then 1 else 0.

Section Generator.
Variable g : nat -> N.

(** [n] calls of gsl_rng_get in sequence. *)
Fixpoint fetch (n c : nat) : list N :=
  match n with O => [] | S m => g c :: fetch m (S c) end.

Record wstate := { w_cells : table; w_t : N; w_regs : list N; w_off : N; w_c : nat }.
Definition wstart (n c : nat) : wstate :=
  {| w_cells := cleared; w_t := 0; w_regs := repeat 0 n; w_off := 0; w_c := c |}.

(** diehard_opso.c:99-122, one round: [w_regs] is j0, k0. *)
Definition opso_step (s : wstate) : outcome wstate :=
  let '(regs, c) := if w_t s mod 2 =? 0 then (fetch 2 (w_c s), (w_c s + 2)%nat) else (w_regs s, w_c s) in
  do j0 <- aget regs 0 ;;
  do k0 <- aget regs 1 ;;
  let sh := if w_t s mod 2 =? 0 then 0 else 10 in
  do j <- shr32 j0 sh ;;
  do k <- shr32 k0 sh ;;
  do w <- update 1024 [N.land j 0x3ff; N.land k 0x3ff] (fun _ => 1) (w_cells s) ;;
  Ok {| w_cells := w; w_t := w_t s + 1; w_regs := regs; w_off := w_off s; w_c := c |}.

(** diehard_opso.c:96-136: the number of holes and of results drawn. *)
Definition opso_missing (tsamples c : nat) : outcome (N * nat) :=
  do s <- iter_o tsamples opso_step (wstart 2 c) ;;
  Ok (Nsum 1024 (fun j => Nsum 1024 (fun k => hole (w_cells s (j * 1024 + k)))), w_c s).

(** diehard_oqso.c:84-103, one round: [w_regs] is i0, j0, k0, l0. *)
Definition oqso_step (s : wstate) : outcome wstate :=
  let '(regs, c, boffset) :=
    if w_t s mod 6 =? 0 then (fetch 4 (w_c s), (w_c s + 4)%nat, 0) else (w_regs s, w_c s, w_off s) in
  do i0 <- aget regs 0 ;; do j0 <- aget regs 1 ;; do k0 <- aget regs 2 ;; do l0 <- aget regs 3 ;;
  do i <- shr32 i0 boffset ;;
  do j <- shr32 j0 boffset ;;
  do k <- shr32 k0 boffset ;;
  do l <- shr32 l0 boffset ;;
  do w <- update 32 [N.land i 0x1f; N.land j 0x1f; N.land k 0x1f; N.land l 0x1f] (fun _ => 1) (w_cells s) ;;
  Ok {| w_cells := w; w_t := w_t s + 1; w_regs := regs; w_off := add32 boffset 5; w_c := c |}.

(** diehard_oqso.c:76-121. *)
Definition oqso_missing (tsamples c : nat) : outcome (N * nat) :=
  do s <- iter_o tsamples oqso_step (wstart 4 c) ;;
  Ok (Nsum 32 (fun i => Nsum 32 (fun j => Nsum 32 (fun k => Nsum 32 (fun l =>
        hole (w_cells s (((i * 32 + j) * 32 + k) * 32 + l)))))), w_c s).

(** diehard_dna.c:158-167: the ten letters. *)
Fixpoint dna_letters (rmax_bits boffset : N) (regs : list N) : outcome (list N) :=
  match regs with
  | [] => Ok []
  | x :: r =>
    do a <- get_bit_ntuple_from_uint rmax_bits x 2 0x3 boffset ;;
    do l <- dna_letters rmax_bits boffset r ;;
    Ok (a :: l)
  end.

(** diehard_dna.c:133-171, one round: [w_regs] is i0, ..., r0.  The ten levels
    of pointers are a table indexed by ten digits. *)
Definition dna_step (rmax_bits : N) (s : wstate) : outcome wstate :=
  let '(regs, c, boffset) :=
    if w_t s mod 32 =? 0 then (fetch 10 (w_c s), (w_c s + 10)%nat, 0) else (w_regs s, w_c s, w_off s) in
  do letters <- dna_letters rmax_bits boffset regs ;;
  do w <- update 4 letters char_incr (w_cells s) ;;
  Ok {| w_cells := w; w_t := w_t s + 1; w_regs := regs; w_off := add32 boffset 1; w_c := c |}.

(** diehard_dna.c:62-200: eleven results are thrown away at the beginning (lines
    62-71 and 130); the ten nested counting loops visit every digit string
    once, written here as one loop. *)
Definition dna_missing (rmax_bits : N) (tsamples c : nat) : outcome (N * nat) :=
  do s <- iter_o tsamples (dna_step rmax_bits) (wstart 10 (c + 11)%nat) ;;
  Ok (Nsum (2 ^ 20) (fun k => hole (w_cells s k)), w_c s).

(** diehard_bitstream.c:124-172, one round with overlap = 1; [bs] is the array
    bitstream, [w_off] is wscratch. *)
Definition bitstream_step (bs : list N) (s : wstate) : outcome wstate :=
  let t := w_t s in
  let coffset := t mod 32 / 8 in
  let boffset := t mod 8 in
  let i := t / 32 + 1 in
  do wscratch <-
    (if boffset =? 0 then
       do ws <- shl32 (w_off s) 8 ;;
       do x <- aget bs (Z.of_N i) ;;
       do newbyte <- shl32 x (8 * coffset) ;;
       do newbyte <- shr32 newbyte 24 ;;
       Ok (add32 ws newbyte)
     else Ok (w_off s)) ;;
  do a <- shl32 wscratch boffset ;;
  do w20 <- shr32 a 12 ;;
  do w <- update (2 ^ 20) [w20] char_incr (w_cells s) ;;
  Ok {| w_cells := w; w_t := t + 1; w_regs := w_regs s; w_off := wscratch; w_c := w_c s |}.

(** diehard_bitstream.c:78-87, 111-253.  BS_OVERLAP results are drawn
    first. *)
Definition BS_OVERLAP : N := 262146.
Definition bitstream_missing (tsamples c : nat) : outcome (N * nat) :=
  let bs := fetch (N.to_nat BS_OVERLAP) c in
  do w0 <- aget bs 0 ;;
  do s <- iter_o tsamples (bitstream_step bs)
            {| w_cells := cleared; w_t := 0; w_regs := []; w_off := w0; w_c := c |} ;;
  Ok (Nsum (2 ^ 20) (fun k => hole (w_cells s k)), (c + N.to_nat BS_OVERLAP)%nat).

(** dab_opso2.c:55: [mask[i] = 1<<i] with a signed 1. *)
Definition opso2_mask (i : N) : outcome N :=
  if i <? 31 then Ok (2 ^ i) else UB "shift of 1 into the sign bit".

(** dab_opso2.c:94-109, one round on the tables w1, w2 of 2^19 words; [mask[i]]
    is taken to be 2^i for all i < 32. *)
Definition opso2_step (s : wstate * table) : outcome (wstate * table) :=
  let '(s, w1) := s in
  let '(regs, c) := if w_t s mod 2 =? 0 then (fetch 2 (w_c s), (w_c s + 2)%nat) else (w_regs s, w_c s) in
  do j0 <- aget regs 0 ;;
  do k0 <- aget regs 1 ;;
  let x := if w_t s mod 2 =? 0 then j0 else k0 in
  let sh := if w_t s mod 2 =? 0 then 0 else 12 in
  do x5 <- shr32 x 5 ;;
  do w1 <- update 524288 [x5 mod 524288] (fun v => N.lor v (2 ^ (x mod 32))) w1 ;;
  do j <- shr32 j0 sh ;;
  let j := N.land j 0x0fff in
  do j12 <- shl32 j 12 ;;
  do k <- shr32 k0 sh ;;
  let k := N.lor j12 (N.land k 0x0fff) in
  do k5 <- shr32 k 5 ;;
  do w2 <- update 524288 [k5] (fun v => N.lor v (2 ^ (k mod 32))) (w_cells s) ;;
  Ok ({| w_cells := w2; w_t := w_t s + 1; w_regs := regs; w_off := w_off s; w_c := c |}, w1).

(** dab_opso2.c:61-126: for rmax_bits >= 24 the two numbers of holes.
    The test sets tsamples to 2^26 (line 78); it is a parameter here. *)
Definition opso2_missing (tsamples c : nat) : outcome (N * N * nat) :=
  do (s, w1) <- iter_o tsamples opso2_step (wstart 2 c, cleared) ;;
  let holes (w : table) := Nsum 32 (fun i => Nsum 524288 (fun j => hole (N.land (w j) (2 ^ i)))) in
  Ok (holes w1, holes (w_cells s), w_c s).
End Generator.
