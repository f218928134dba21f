(** Model of the routines that turn a generator into a stream of bits:
    get_uint_rand, get_rand_bits, reset_bit_buffers (libdieharder/bits.c) and
    get_rand_bits_uint (libdieharder/static_get_bits.c).

    The generator behind gsl_rng_get is a stream [g : N -> N]: its i-th result
    is [g i]; the number of results drawn so far is part of the state. *)
From Verif Require Export CyclicModel.
Open Scope N_scope.

Section Generator.
Variable g : N -> N.          (** results of gsl_rng_get *)
Variable rmax_bits : N.       (** global: number of valid bits in a result *)

(** bits.c:900-901: the static variables of get_uint_rand, with the generator
    position.  The function-static [bl] is never read, [bu] is the constant 32
    and [tmp] is written before it is read, so they are left out. *)
Record ustate := mkU { bits_rand0 : N; bits_rand1 : N; bleft : Z; gpos : N }.

(** bits.c:942-964, [while(bleft > rmax_bits)]: [bleft] is converted to
    unsigned for the comparison; it is never negative here.  Each round lowers
    bleft (at most 32) by rmax_bits, so 33 rounds are enough unless
    rmax_bits = 0. *)
Fixpoint uint_fill (fuel : nat) (s : ustate) : outcome ustate :=
  match fuel with
  | O => OutOfFuel
  | S fuel' =>
    if rmax_bits <? u32_of_Z (bleft s) then
      let r0 := g (gpos s) in
      do v <- b_window r0 (sub32 32 rmax_bits) 31
                (u32_of_Z (bleft s - Z.of_N rmax_bits)) ;;
      uint_fill fuel'
        (mkU r0 (add32 (bits_rand1 s) v) (bleft s - Z.of_N rmax_bits)%Z (gpos s + 1))
    else Ok s
  end.

(** bits.c:903-1012 [get_uint_rand]. *)
Definition get_uint_rand (s : ustate) : outcome (N * ustate) :=
  let s := if (bleft s =? -1)%Z
           then mkU 0 (g (gpos s)) (32 - Z.of_N rmax_bits)%Z (gpos s + 1)
           else s in
  do s <- uint_fill 33 s ;;
  let r0 := g (gpos s) in
  do r1 <- (if negb (bleft s =? 0)%Z then
              do v <- b_window r0 (u32_of_Z (32 - bleft s)) 31 0 ;;
              Ok (add32 (bits_rand1 s) v)
            else Ok (bits_rand1 s)) ;;
  let tmp := r1 in
  if u32_of_Z (bleft s) =? rmax_bits then
    Ok (tmp, mkU r0 r1 32 (gpos s + 1))
  else
    do lft <- b_window r0 (sub32 32 rmax_bits) (u32_of_Z (32 - bleft s - 1))
                 (u32_of_Z (32 - Z.of_N rmax_bits + bleft s)) ;;
    Ok (tmp, mkU r0 lft (32 - Z.of_N rmax_bits + bleft s)%Z (gpos s + 1)).

(** bits.c:1028-1036: the static variables of get_rand_bits. *)
Record bstate := mkB {
  bu : ustate;
  randbuf : list N;          (** bits_randbuf[BRBUF], BRBUF = 6 *)
  brindex : Z; iclear : Z; bitindex : Z }.

(** bits.c:1079-1082: fill the buffer from index [n-1] down to 0. *)
Fixpoint buf_fill (n : nat) (u : ustate) (buf : list N) : outcome (ustate * list N) :=
  match n with
  | O => Ok (u, buf)
  | S n' =>
    do (w, u) <- get_uint_rand u ;;
    do buf <- aset buf (Z.of_nat n') w ;;
    buf_fill n' u buf
  end.

(** bits.c:1146-1149: the backfill loop.  It walks iclear down to brindex
    cyclically, at most 5 rounds when both are in 0..5. *)
Fixpoint backfill (fuel : nat) (u : ustate) (buf : list N) (iclear brindex : Z)
    : outcome (ustate * list N * Z) :=
  match fuel with
  | O => OutOfFuel
  | S fuel' =>
    if (iclear =? brindex)%Z then Ok (u, buf, iclear)
    else
      do (w, u) <- get_uint_rand u ;;
      do buf <- aset buf iclear w ;;
      let iclear := (iclear - 1)%Z in
      let iclear := if (iclear <? 0)%Z then (iclear + 6)%Z else iclear in
      backfill fuel' u buf iclear brindex
  end.

(** The bytes of a word in memory on a little-endian machine. *)
Definition le_bytes (w : N) : list N :=
  [w mod 256; (w / 2 ^ 8) mod 256; (w / 2 ^ 16) mod 256; (w / 2 ^ 24) mod 256].

(** bits.c:1038-1193 [get_rand_bits].  Returns the [rsize] bytes stored at
    [result] (little-endian machine).  The bytes copied are the last [rsize]
    bytes of bits_output; for rsize > 24 the copy starts before the array. *)
Definition get_rand_bits (rsize nbits : N) (s : bstate) : outcome (list N * bstate) :=
  let zero := repeat 0 (N.to_nat rsize) in
  if nbits =? 0 then Ok (zero, s)
  else if 128 <? nbits then Ok (zero, s)
  else if w32 (rsize * 8) <? nbits then Ok (zero, s)
  else
    do s <- (if (brindex s =? -1)%Z then
               do (u, buf) <- buf_fill 6 (bu s) (randbuf s) ;;
               Ok (mkB u buf 6 5 0)
             else Ok s) ;;
    let brindex := (brindex s - Z.of_N (nbits / 32))%Z in
    let bitindex := (bitindex s - Z.of_N (nbits mod 32))%Z in
    let '(brindex, bitindex) :=
      if (bitindex <? 0)%Z then (brindex - 1, bitindex + 32)%Z else (brindex, bitindex) in
    let brindex := if (brindex <? 0)%Z then (brindex + 6)%Z else brindex in
    let offset := u32_of_Z (brindex * 32 + bitindex) in
    do output <- get_ntuple_cyclic (randbuf s) 6 6 nbits offset ;;
    do (ub, iclear) <- backfill 7 (bu s) (randbuf s) (iclear s) brindex ;;
    let '(u, buf) := ub in
    if 24 <? rsize then UB "read before bits_output"
    else
      let bytes := flat_map le_bytes output in
      Ok (skipn (N.to_nat (24 - rsize)) bytes, mkB u buf brindex iclear bitindex).

(** bits.c:1425-1440 [reset_bit_buffers]: everything but the generator goes
    back to its initial value. *)
Definition reset_bit_buffers (s : bstate) : bstate :=
  mkB (mkU 0 0 (-1) (gpos (bu s))) (repeat 0 6) (-1) (-1) (-1).

(** Run one request after another. *)
Fixpoint run_uint (n : nat) (s : ustate) : outcome (list N * ustate) :=
  match n with
  | O => Ok ([], s)
  | S n' => do (w, s) <- get_uint_rand s ;;
            do (ws, s) <- run_uint n' s ;; Ok (w :: ws, s)
  end.
Fixpoint run_bits (reqs : list (N * N)) (s : bstate) : outcome (list (list N) * bstate) :=
  match reqs with
  | [] => Ok ([], s)
  | (rsize, nbits) :: rest =>
    do (r, s) <- get_rand_bits rsize nbits s ;;
    do (rs, s) <- run_bits rest s ;; Ok (r :: rs, s)
  end.

(** static_get_bits.c:25-196: the statics of get_rand_bits_uint. *)
Record rstate := mkR { bit_buffer : N; bits_left : N; rpos : N }.

(** static_get_bits.c:160-194: the refill loop; nbits drops by rmax_bits each
    round. *)
Fixpoint refill (fuel : nat) (nbits bits mask : N) (pos : N) : outcome (N * rstate) :=
  match fuel with
  | O => OutOfFuel
  | S fuel' =>
    let buf := g pos in
    if nbits <=? rmax_bits then
      let lft := rmax_bits - nbits in
      do sh <- shr32 buf lft ;;
      Ok (N.land (N.lor bits sh) mask, mkR buf lft (pos + 1))
    else
      let nbits := nbits - rmax_bits in
      do sh <- shl32 buf nbits ;;
      refill fuel' nbits (N.lor bits sh) mask (pos + 1)
  end.

(** static_get_bits.c:25-196 [get_rand_bits_uint].  The mask for mask = 0 is
    computed before the test for nbits > 32, so [1u << nbits] is undefined for
    nbits >= 32. *)
Definition get_rand_bits_uint (nbits mask : N) (s : rstate) : outcome (N * rstate) :=
  do mask <- (if mask =? 0 then do b <- shl32 1 nbits ;; Ok (sub32 b 1) else Ok mask) ;;
  let mask := if nbits =? 32 then 0xFFFFFFFF else mask in
  if 32 <? nbits then Exit 0
  else if nbits =? rmax_bits then Ok (g (rpos s), mkR (bit_buffer s) (bits_left s) (rpos s + 1))
  else if nbits <=? bits_left s then
    let lft := bits_left s - nbits in
    do bits <- shr32 (bit_buffer s) lft ;;
    Ok (N.land bits mask, mkR (bit_buffer s) lft (rpos s))
  else
    let nbits := nbits - bits_left s in
    do bits <- (if nbits =? 32 then Ok 0 else shl32 (bit_buffer s) nbits) ;;
    refill 33 nbits bits mask (rpos s).

Fixpoint run_rbu (reqs : list N) (s : rstate) : outcome (list N * rstate) :=
  match reqs with
  | [] => Ok ([], s)
  | nbits :: rest =>
    do (r, s) <- get_rand_bits_uint nbits (N.ones nbits) s ;;
    do (rs, s) <- run_rbu rest s ;; Ok (r :: rs, s)
  end.
End Generator.

(** A call of one of the two buffered routines. *)
Inductive call := CallUint | CallBits (rsize nbits : N).
(** Run a list of calls: each result is the list of words or bytes returned. *)
Fixpoint run_calls (g : N -> N) (w : N) (cs : list call) (s : bstate) : outcome (list (list N)) :=
  match cs with
  | [] => Ok []
  | CallUint :: rest =>
    do (v, u) <- get_uint_rand g w (bu s) ;;
    do vs <- run_calls g w rest (mkB u (randbuf s) (brindex s) (iclear s) (bitindex s)) ;;
    Ok ([v] :: vs)
  | CallBits rsize nbits :: rest =>
    do (v, s) <- get_rand_bits g w rsize nbits s ;;
    do vs <- run_calls g w rest s ;; Ok (v :: vs)
  end.
