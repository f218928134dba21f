(** Model of get_rand_pattern (libdieharder/bits.c). *)
From Verif Require Export StreamModel.
Open Scope N_scope.

(** bits.c:1291-1309: the counting loop, [while(pattern[i])].  Returns the
    index of the terminator and the number of bits; reading past the end of the
    array is undefined.  Fuel: one more than the length of the array. *)
Fixpoint pattern_scan (fuel : nat) (pattern : list Z) (i : nat) (nbits : N) : outcome (nat * N) :=
  match fuel with
  | O => OutOfFuel
  | S fuel' =>
    do p <- aget pattern (Z.of_nat i) ;;
    if (p =? 0)%Z then Ok (i, nbits)
    else
      let nbits := if (0 <? p)%Z then w32 (nbits + Z.to_N p) else nbits in
      if (32 <? p)%Z then Exit 0
      else pattern_scan fuel' pattern (S i) nbits
  end.

(** bits.c:1276-1418 [get_rand_pattern].  The delivery loop (1355-1413) reads
    pattern[i] with the [i] left over from the counting loop and never changes
    it.  Simplification: a positive pattern[i] there would write through
    [&resultp + pindex], outside any object (undefined); a negative one would
    skip the same bits for ever, since neither [i] nor [nbits] changes.  The
    result is the list of bytes stored at [result]. *)
Definition get_rand_pattern (rsize : N) (pattern : list Z) : outcome (list N) :=
  do (i, nbits) <- pattern_scan (S (length pattern)) pattern 0 0 ;;
  let zero := repeat 0 (N.to_nat rsize) in
  if nbits =? 0 then Ok zero
  else if 128 <? nbits then Ok zero
  else if w32 (rsize * 8) <? nbits then Ok zero
  else
    do p <- aget pattern (Z.of_nat i) ;;
    if (0 <? p)%Z then UB "write through &resultp"
    else if (p <? 0)%Z then OutOfFuel
    else Exit 0.
