(** Model of the pure bit-level routines of libdieharder/bits.c and
    libdieharder/static_get_bits.c.  Definitions only. *)
From Verif Require Export Base.
Open Scope N_scope.

(** [mask = mask << 1; mask++;]  (bits.c:59-60, 241-242, 518-520). *)
Definition mask_step (m : N) : N := add32 (w32 (N.shiftl m 1)) 1.

(** bits.c:503-532 [b_umask].  [bstart < 0] is always false (unsigned).
    The loop [for(b=1;b<blen;b++)] runs [blen-1] times (1 <= blen <= 32). *)
Definition b_umask (bstart bstop : N) : outcome N :=
  if (31 <? bstop) || (bstop <? bstart) then Exit 0
  else
    let blen := add32 (sub32 bstop bstart) 1 in
    let mask := N.iter (blen - 1) mask_step 1 in
    shl32 mask (sub32 (sub32 32 blen) bstart).

(** bits.c:549-579 [b_window].  All parameters are unsigned; [shift] is a
    signed difference of two values below 32. *)
Definition b_window (input bstart bstop boffset : N) : outcome N :=
  if (31 <? bstop) || (bstop <? bstart) then Exit 0
  else if 31 <? boffset then Exit 0
  else
    let shift := (Z.of_N bstart - Z.of_N boffset)%Z in
    do mask <- b_umask bstart bstop ;;
    let output := N.land input mask in
    if (0 <? shift)%Z then shl32 output (Z.to_N shift)
    else shr32 output (Z.to_N (- shift)).

(** bits.c:584-599 [b_rotate_left] (its dumpbits calls only print). *)
Definition b_rotate_left (input shift : N) : outcome N :=
  do tmp <- b_window input 0 (sub32 shift 1) (sub32 32 shift) ;;
  do sh <- shl32 input shift ;;
  Ok (add32 sh tmp).

(** bits.c:604-629 [b_rotate_right]. *)
Definition b_rotate_right (input shift : N) : outcome N :=
  if shift =? 0 then Ok input
  else
    do tmp <- b_window input (sub32 32 shift) 31 0 ;;
    do sh <- shr32 input shift ;;
    Ok (add32 sh tmp).

(** bits.c:226-271 [cycle]: returns the new value of [*data].  The loop bound
    [nbits-1] is an unsigned subtraction, hence [sub32]. *)
Definition cycle (data nbits : N) : N :=
  let rmask := N.iter (sub32 nbits 1) mask_step 1 in
  let lmask := N.iter (sub32 nbits 1) (fun m => w32 (N.shiftl m 1)) 1 in
  let result := N.land data rmask in
  let rbit := N.land 1 result in
  let result := N.shiftr result 1 in
  add32 result (mul32 rbit lmask).

(** bits.c:123-163: the carry loop of [get_bit_ntuple].  At most 32 rounds are
    needed because rlen grows by rmax_bits >= 1 and blen <= 32. *)
Fixpoint ntuple_carry (fuel : nat) (rmax_bits : N) (bitstring : list N)
    (bslen blen : N) (ioffset : Z) (result rlen : N) : outcome N :=
  match fuel with
  | O => OutOfFuel
  | S fuel' =>
    if rlen <? blen then
      let ioffset := (ioffset - 1)%Z in
      let ioffset := if (ioffset <? 0)%Z then (Z.of_N bslen - 1)%Z else ioffset in
      do carry <- aget bitstring ioffset ;;
      let carry := N.iter rlen (fun c => w32 (N.shiftl c 1)) carry in
      ntuple_carry fuel' rmax_bits bitstring bslen blen ioffset
        (add32 result carry) (add32 rlen rmax_bits)
    else Ok result
  end.

(** bits.c:40-173 [get_bit_ntuple]; [rmax_bits] is the global of that name.
    The mask loop bound [blen-1] is unsigned.  [ioffset] is an int holding the
    unsigned expression [bslen - boffset/rmax_bits - 1]; for array sizes below
    2^31 that is the mathematical difference, which is what is written here. *)
Definition get_bit_ntuple (rmax_bits : N) (bitstring : list N)
    (bslen blen boffset : N) : outcome N :=
  let blen := if 32 <? blen then 32 else blen in
  let nmask := N.iter (sub32 blen 1) mask_step 1 in
  if rmax_bits =? 0 then UB "division by zero"
  else
    let ioffset := (Z.of_N bslen - Z.of_N (boffset / rmax_bits) - 1)%Z in
    do result <- aget bitstring ioffset ;;
    let boffset := boffset mod rmax_bits in
    let result := N.iter boffset (fun r => N.shiftr r 1) result in
    do result <- ntuple_carry 33 rmax_bits bitstring bslen blen ioffset
                   result (sub32 rmax_bits boffset) ;;
    Ok (N.land result nmask).

(** bits.c:178-198 [dumpbits]: the character codes printed ('0' = 48).
    [pow(2,nbits-1)] for nbits = 0 is infinity, whose conversion to unsigned
    is undefined. *)
Fixpoint dump_loop (n : nat) (mask data : N) : list Z :=
  match n with
  | O => []
  | S n' => (if N.land mask data =? 0 then 48%Z else 49%Z)
              :: dump_loop n' (N.shiftr mask 1) data
  end.
Definition dumpbits (data nbits : N) : outcome (list Z) :=
  let nbits := if 32 <? nbits then 32 else nbits in
  if nbits =? 0 then UB "conversion of infinity"
  else Ok (dump_loop (N.to_nat nbits) (2 ^ (nbits - 1)) data).

(** bits.c:204-212 [dumpbitwin]. *)
Fixpoint dumpbitwin_loop (n : nat) (data : N) : outcome (list Z) :=
  match n with
  | O => Ok []
  | S n' => do s <- shr32 data (N.of_nat n') ;;
            do r <- dumpbitwin_loop n' data ;;
            Ok ((48 + Z.of_N (N.land s 1))%Z :: r)
  end.
Definition dumpbitwin (data nbits : N) : outcome (list Z) :=
  dumpbitwin_loop (N.to_nat nbits) data.

(** bits.c:340-360 [dumpbits_left] (without the final newline). *)
Fixpoint dumpleft_loop (n : nat) (mask data : N) : list Z :=
  match n with
  | O => []
  | S n' => (if N.land mask data =? 0 then 48%Z else 49%Z)
              :: dumpleft_loop n' (w32 (N.shiftl mask 1)) data
  end.
Definition dumpbits_left (data nbits : N) : list Z :=
  let nbits := if 32 <? nbits then 32 else nbits in
  dumpleft_loop (N.to_nat nbits) 1 data.

(** bits.c:363-394 [bit2uint]: [abit] is an array of character codes. *)
Fixpoint bit2uint_loop (n : nat) (i : Z) (abit : list Z) (result : N) : outcome N :=
  match n with
  | O => Ok result
  | S n' =>
    let result := w32 (N.shiftl result 1) in
    do c <- aget abit i ;;
    let bit := (c - 48)%Z in
    bit2uint_loop n' (i + 1)%Z abit (u32_of_Z (Z.of_N result + bit))
  end.
Definition bit2uint (abit : list Z) (blen : N) : outcome N :=
  bit2uint_loop (N.to_nat blen) 0 abit 0.

(** bits.c:304-335 [get_int_bit]. *)
Definition get_int_bit (i n : N) : outcome N :=
  if 32 <? n then Exit 0
  else
    do mask <- shl32 1 n ;;
    Ok (if N.land mask i =? 0 then 0 else 1).

(** bits.c:277-302 [get_bit].  [(int)pow(2,31)] is a conversion of a double
    outside the range of int: undefined (C11 6.3.1.4).  So the function never
    has a defined result; the model says so. *)
Definition get_bit (rmax_bits : N) (rand_uint : list N) (n : N) : outcome N :=
  if rmax_bits =? 0 then UB "division by zero"
  else UB "conversion of 2^31 to int".

(** static_get_bits.c:204-225 [get_bit_ntuple_from_uint].  At most nbits
    rounds of the wrap loop. *)
Fixpoint wrap_loop (fuel : nat) (rmax_bits bitstr nbits result len : N) : outcome N :=
  match fuel with
  | O => OutOfFuel
  | S fuel' =>
    if len <? nbits then
      do sh <- shl32 bitstr len ;;
      wrap_loop fuel' rmax_bits bitstr nbits (N.lor result sh) (add32 len rmax_bits)
    else Ok result
  end.
Definition get_bit_ntuple_from_uint (rmax_bits bitstr nbits mask boffset : N) : outcome N :=
  if rmax_bits =? 0 then UB "division by zero"
  else
    let boffset := boffset mod rmax_bits in
    do result <- shr32 bitstr boffset ;;
    if add32 boffset nbits <=? rmax_bits then Ok (N.land result mask)
    else
      do result <- wrap_loop (S (N.to_nat nbits)) rmax_bits bitstr nbits result
                     (sub32 rmax_bits boffset) ;;
      Ok (N.land result mask).

(** static_get_bits.c:238-257 [get_bit_ntuple_from_whole_uint]. *)
Definition get_bit_ntuple_from_whole_uint (bitstr nbits mask boffset : N) : outcome N :=
  do result <- shr32 bitstr boffset ;;
  if add32 boffset nbits <=? 32 then Ok (N.land result mask)
  else
    do result <- wrap_loop (S (N.to_nat nbits)) 32 bitstr nbits result (sub32 32 boffset) ;;
    Ok (N.land result mask).
