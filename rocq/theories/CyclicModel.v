(** Model of get_ntuple_cyclic (libdieharder/bits.c:661-871). *)
From Verif Require Export BitsModel.
Open Scope Z_scope.

(** [output[j] += v] and [output[j] = v]. *)
Definition out_add (output : list N) (j : Z) (v : N) : outcome (list N) :=
  do o <- aget output j ;; aset output j (add32 o v).
Definition out_set (output : list N) (j : Z) (v : N) : outcome (list N) :=
  aset output j v.

(** [b_window(input[i],a,b,c)] with int arguments converted to unsigned. *)
Definition win (input : list N) (i a b c : Z) : outcome N :=
  do w <- aget input i ;; b_window w (u32_of_Z a) (u32_of_Z b) (u32_of_Z c).

(** bits.c:754-869: the main loop.  [bu] is 32.  Each round that does not
    leave the loop lowers bleft by at least be >= 1, so [fuel] = ntuple + 1
    rounds suffice. *)
Fixpoint ntc_loop (fuel : nat) (input : list N) (ilen bs be br1 br2 : Z)
    (output : list N) (i j bleft : Z) : outcome (list N) :=
  match fuel with
  | O => OutOfFuel
  | S fuel' =>
    if 0 <? bleft then
      (* Rule 1, lines 759-771 *)
      if bleft =? br1 then
        do v <- win input i bs (be - 1) (32 - bleft) ;; out_set output j v
      else
        (* Rule Right, lines 776-793 (bleft != 0 holds here) *)
        do v <- win input i 0 (be - 1) (32 - be) ;;
        do output <- out_add output j v ;;
        let bleft := bleft - be in
        let i := i - 1 in
        let i := if i <? 0 then ilen - 1 else i in
        (* Rule 2b, lines 802-815 *)
        if (bleft =? br2) && (be =? 32) then
          let j := j - 1 in
          do v <- win input i bs 31 (32 - br2) ;; out_add output j v
        (* Rule 2c, lines 824-836 *)
        else if (bleft =? br2) && (br2 <? 32) then
          do v <- win input i bs 31 (bs - be) ;; out_add output j v
        (* Rule Left, lines 842-867 *)
        else if negb (bleft =? 0) then
          if negb (be =? 32) then
            do v <- win input i be 31 0 ;;
            do output <- out_add output j v ;;
            ntc_loop fuel' input ilen bs be br1 br2 output i (j - 1) (bleft - (32 - be))
          else
            ntc_loop fuel' input ilen bs be br1 br2 output i (j - 1) bleft
        else Ok output
    else Ok output
  end.

(** bits.c:661-871.  [offset + ntuple] is computed in unsigned arithmetic;
    [i%ilen] converts i to unsigned.  Returns the final output array. *)
Definition get_ntuple_cyclic (input : list N) (ilen : N) (jlen : N)
    (ntuple offset : N) : outcome (list N) :=
  let bs := Z.of_N (offset mod 32) in
  let be := Z.of_N ((add32 offset ntuple) mod 32) in
  let be := if be =? 0 then 32 else be in
  let br1 := be - bs in
  let br2 := 32 - bs in
  let i := Z.of_N (add32 offset ntuple / 32) in
  let j := Z.of_N jlen - 1 in
  let i := if be =? 32 then i - 1 else i in
  if (ilen =? 0)%N then UB "division by zero"
  else
    let i := Z.of_N (u32_of_Z i mod ilen) in
    let output := repeat 0%N (N.to_nat jlen) in
    let bleft := Z.of_N ntuple in
    (* Rule 2a, lines 721-732 *)
    do (output, bleft) <-
      (if bleft =? br2 then
         do v <- win input i bs 31 (32 - br2) ;;
         do output <- out_add output j v ;; Ok (output, bleft - br2)
       else Ok (output, bleft)) ;;
    (* Rule 1a, lines 739-750 *)
    do (output, bleft) <-
      (if bleft =? br1 then
         do v <- win input i bs (be - 1) (32 - bleft) ;;
         do output <- out_set output j v ;; Ok (output, bleft - br1)
       else Ok (output, bleft)) ;;
    ntc_loop (S (N.to_nat ntuple)) input (Z.of_N ilen) bs be br1 br2 output i j bleft.
