(** Model of the two inline routines of libdieharder/static_get_bits.c that
    take bits out of one word. *)
From Verif Require Export Base.
Open Scope N_scope.

(** static_get_bits.c:218-222 and 250-253: [while(len < nbits) ...].  len
    grows by width >= 1 each round. *)
Fixpoint wrap_loop (fuel : nat) (width bitstr nbits len result : N) : outcome N :=
  match fuel with
  | O => OutOfFuel
  | S f =>
    if len <? nbits then
      do s <- shl32 bitstr len ;;
      wrap_loop f width bitstr nbits (add32 len width) (N.lor result s)
    else Ok result
  end.

(** static_get_bits.c:204-224; [rmax_bits] is the global of that name. *)
Definition get_bit_ntuple_from_uint (rmax_bits bitstr nbits mask boffset : N) : outcome N :=
  if rmax_bits =? 0 then UB "division by zero" else
  let boffset := boffset mod rmax_bits in
  do result <- shr32 bitstr boffset ;;
  if add32 boffset nbits <=? rmax_bits then Ok (N.land result mask)
  else
    do result <- wrap_loop 33 rmax_bits bitstr nbits (sub32 rmax_bits boffset) result ;;
    Ok (N.land result mask).

(** static_get_bits.c:238-257. *)
Definition get_bit_ntuple_from_whole_uint (bitstr nbits mask boffset : N) : outcome N :=
  do result <- shr32 bitstr boffset ;;
  if add32 boffset nbits <=? 32 then Ok (N.land result mask)
  else
    do result <- wrap_loop 33 32 bitstr nbits (sub32 32 boffset) result ;;
    Ok (N.land result mask).
