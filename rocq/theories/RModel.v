(** Model of the six generators taken from GNU R (rngs_gnu_r.c). *)
From Flocq Require Import IEEE754.BinarySingleNaN.
From Verif Require Export Base DoubleModel.
Open Scope N_scope.

(** rngs_gnu_r.c:84-92 [RNGtype], without USER_UNIF. *)
Inductive rkind := WICHMANN_HILL | MARSAGLIA_MULTICARRY | SUPER_DUPER | MERSENNE_TWISTER | KNUTH_TAOCP | KNUTH_TAOCP2.

(** rngs_gnu_r.c:153-165 [RNG_Table]: the number of seed words.  All six
    generators keep their words in the same static array [dummyvec] of 625
    words, from its start: this array is the whole state.  (The state of a GSL
    generator holds a copy of the table entry, with a pointer to the array.) *)
Definition n_seed (k : rkind) : nat :=
  match k with
  | WICHMANN_HILL => 3
  | MARSAGLIA_MULTICARRY | SUPER_DUPER => 2
  | MERSENNE_TWISTER => 625
  | KNUTH_TAOCP | KNUTH_TAOCP2 => 101
  end.

(** ** Mersenne twister *)

(** rngs_gnu_r.c:765-769 and 809: combining two words, and [mag01]. *)
Definition mt_mix (a b : N) : N := N.lor (N.land a 0x80000000) (N.land b 0x7fffffff).
Definition mag01 (y : N) : N := if N.land y 1 =? 0 then 0 else 0x9908b0df.
(** [mt[kk] = mt[kk+d] ^ (y >> 1) ^ mag01[y & 0x1]] with y from mt[kk] and
    mt[next]. *)
Definition mt_step (mt : list N) (kk next src : Z) : outcome (list N) :=
  do a <- aget mt kk ;;
  do b <- aget mt next ;;
  let y := mt_mix a b in
  do c <- aget mt src ;;
  aset mt kk (N.lxor (N.lxor c (N.shiftr y 1)) (mag01 y)).
(** The loops at rngs_gnu_r.c:820-827, [n] steps from [kk] with source offset
    [d]. *)
Fixpoint mt_loop (n : nat) (kk d : Z) (mt : list N) : outcome (list N) :=
  match n with
  | O => Ok mt
  | S n => do mt <- mt_step mt kk (kk + 1) (kk + d) ;; mt_loop n (kk + 1) d mt
  end.
(** rngs_gnu_r.c:820-829. *)
Definition mt_block (mt : list N) : outcome (list N) :=
  do mt <- mt_loop 227 0 397 mt ;;
  do mt <- mt_loop 396 227 (397 - 624) mt ;;
  mt_step mt 623 0 396.
(** rngs_gnu_r.c:835-838: tempering. *)
Definition mt_temper (y : N) : N :=
  let y := N.lxor y (N.shiftr y 11) in
  let y := N.lxor y (N.land (w32 (N.shiftl y 7)) 0x9d2c5680) in
  let y := N.lxor y (N.land (w32 (N.shiftl y 15)) 0xefc60000) in
  N.lxor y (N.shiftr y 18).
(** rngs_gnu_r.c:783-795 [MT_sgenrand], the words. *)
Fixpoint mt_sgenrand (n : nat) (seed : N) : list N :=
  match n with
  | O => []
  | S n =>
    let hi := N.land seed 0xffff0000 in
    let seed := add32 (mul32 69069 seed) 1 in
    let w := N.lor hi (N.shiftr (N.land seed 0xffff0000) 16) in
    w :: mt_sgenrand n (add32 (mul32 69069 seed) 1)
  end.
(** rngs_gnu_r.c:806-842 [MT_genrand], up to the final product: [mti] is an int
    read from the first word, of which a value of 2^31 or more becomes
    negative. *)
Definition mt_genrand (dv : list N) : outcome (N * list N) :=
  do w <- aget dv 0 ;;
  let mt := skipn 1 dv in
  do (mti, mt) <- (if (w <? 2 ^ 31) && (624 <=? w) then
      do mt <- mt_block (if w =? 625 then mt_sgenrand 624 4357 else mt) ;;
      Ok (0%Z, mt)
    else Ok (if w <? 2 ^ 31 then Z.of_N w else (Z.of_N w - 2 ^ 32)%Z, mt)) ;;
  do y <- aget mt mti ;;
  Ok (mt_temper y, Z.to_N (mti + 1) :: mt).

(** ** Knuth's generators *)

(** rngs_gnu_r.c:862: subtraction modulo 2^30, on unsigned 32-bit numbers. *)
Definition mod_diff (x y : N) : N := N.land (sub32 x y) (2 ^ 30 - 1).
(** rngs_gnu_r.c:864-871 [ran_array], the first loops: [aa] grown to [n]
    words. *)
Fixpoint ran_grow (n : nat) (aa : list N) : outcome (list N) :=
  match n with
  | O => Ok aa
  | S n =>
    let j := Z.of_nat (length aa) in
    do a <- aget aa (j - 100) ;;
    do b <- aget aa (j - 37) ;;
    ran_grow n (aa ++ [mod_diff a b])
  end.
(** The last two loops: the new [ran_x], word by word.  [done] are the words of
    [ran_x] already set; the model has it as a new list, since no old word of
    [ran_x] is read any more. *)
Fixpoint ran_next (m : nat) (aa : list N) (n : Z) (done : list N) : outcome (list N) :=
  match m with
  | O => Ok done
  | S m =>
    let i := Z.of_nat (length done) in
    do a <- aget aa (n + i - 100) ;;
    do b <- (if (i <? 37)%Z then aget aa (n + i - 37) else aget done (i - 37)) ;;
    ran_next m aa n (done ++ [mod_diff a b])
  end.
Definition ran_array (ran_x : list N) (n : nat) : outcome (list N * list N) :=
  do aa <- ran_grow (n - 100) ran_x ;;
  do x <- ran_next 100 aa (Z.of_nat n) [] ;;
  Ok (aa, x).

(** rngs_gnu_r.c:906-910: the buffer of 100 words to start with. *)
Fixpoint kt_bootstrap (n : nat) (ss : N) : list N :=
  match n with
  | O => []
  | S n =>
    let s2 := w32 (N.shiftl ss 1) in
    ss :: kt_bootstrap n (if 2 ^ 30 <=? s2 then sub32 s2 (2 ^ 30 - 2) else s2)
  end.
(** rngs_gnu_r.c:913: [for (j=KK-1;j>0;j--) x[j+j]=x[j], x[j+j-1]=0]. *)
Fixpoint kt_spread (j : nat) (x : list N) : outcome (list N) :=
  match j with
  | O => Ok x
  | S i =>
    let z := Z.of_nat j in
    do v <- aget x z ;;
    do x <- aset x (z + z) v ;;
    do x <- aset x (z + z - 1) 0 ;;
    kt_spread i x
  end.
(** rngs_gnu_r.c:914-916: [n] steps downwards, ending at j = 100. *)
Fixpoint kt_reduce (n : nat) (x : list N) : outcome (list N) :=
  match n with
  | O => Ok x
  | S n' =>
    let j := (Z.of_nat n + 99)%Z in
    do v <- aget x j ;;
    do a <- aget x (j - 63) ;;
    do x <- aset x (j - 63) (mod_diff a v) ;;
    do v <- aget x j ;;
    do b <- aget x (j - 100) ;;
    do x <- aset x (j - 100) (mod_diff b v) ;;
    kt_reduce n' x
  end.
(** rngs_gnu_r.c:918: [for (j=KK;j>0;j--) x[j]=x[j-1]]. *)
Fixpoint kt_shift (j : nat) (x : list N) : outcome (list N) :=
  match j with
  | O => Ok x
  | S i =>
    do v <- aget x (Z.of_nat i) ;;
    do x <- aset x (Z.of_nat j) v ;;
    kt_shift i x
  end.
(** rngs_gnu_r.c:912-923: the loop over the bits of the seed, then [t] more
    rounds. *)
Fixpoint kt_rounds (fuel : nat) (ss : N) (t : nat) (x : list N) : outcome (list N) :=
  match t with
  | O => Ok x
  | S t' =>
    match fuel with
    | O => OutOfFuel
    | S fuel =>
      do x <- kt_spread 99 x ;;
      do x <- kt_reduce 99 x ;;
      do x <- (if N.odd ss then
          do x <- kt_shift 100 x ;;
          do v <- aget x 100 ;;
          do x <- aset x 0 v ;;
          do a <- aget x 37 ;;
          aset x 37 (mod_diff a v)
        else Ok x) ;;
      if ss =? 0 then kt_rounds fuel ss t' x else kt_rounds fuel (N.shiftr ss 1) t x
    end
  end.
(** rngs_gnu_r.c:926: [ran_array(x, KK+KK-1)], ten times. *)
Fixpoint kt_warm (n : nat) (ran_x : list N) : outcome (list N) :=
  match n with
  | O => Ok ran_x
  | S n => do (aa, ran_x) <- ran_array ran_x 199 ;; kt_warm n ran_x
  end.
(** rngs_gnu_r.c:897-928 [ran_start]; the words of the preparation buffer [x]
    above the first hundred start without a value (0 here): each is set before
    it is read. *)
Definition ran_start (fuel : nat) (seed : N) : outcome (list N) :=
  let x := kt_bootstrap 100 (N.land (w32 (seed + 2)) (2 ^ 30 - 2)) ++ repeat 0 99 in
  do v <- aget x 1 ;;
  do x <- aset x 1 (w32 (v + 1)) ;;
  do x <- kt_rounds fuel (N.land seed (2 ^ 30 - 1)) 69 x ;;
  kt_warm 10 (firstn 63 (skipn 37 x) ++ firstn 37 x).
(** rngs_gnu_r.c:931-935 and 946-950: [RNG_Init_KT2] and [RNG_Init_R_KT] are the
    same. *)
Definition init_kt (seed : N) : outcome (list N) :=
  do x <- ran_start 100 (seed mod 1073741821) ;; Ok (x ++ [100]).
(** rngs_gnu_r.c:937-944 [KT_next], with ran_arr_cycle (877-883). *)
Definition kt_next (dv : list N) : outcome (N * list N) :=
  do pos <- aget dv 100 ;;
  do (pos, x) <- (if 100 <=? pos then do (aa, x) <- ran_array (firstn 100 dv) 1009 ;; Ok (0, x)
                  else Ok (pos, firstn 100 dv)) ;;
  do v <- aget x (Z.of_N pos) ;;
  Ok (v, x ++ [pos + 1]).

(** ** The common interface *)

(** rngs_gnu_r.c:192-234 [unif_rand], the integer part: the words from which the
    number is computed, and the new words of the generator. *)
Definition r_words (k : rkind) (l : list N) : outcome (list N * list N) :=
  match k with
  | WICHMANN_HILL =>
    do i1 <- aget l 0 ;; do i2 <- aget l 1 ;; do i3 <- aget l 2 ;;
    let i1 := mul32 i1 171 mod 30269 in
    let i2 := mul32 i2 172 mod 30307 in
    let i3 := mul32 i3 170 mod 30323 in
    Ok ([i1; i2; i3], [i1; i2; i3])
  | MARSAGLIA_MULTICARRY =>
    do i1 <- aget l 0 ;; do i2 <- aget l 1 ;;
    let i1 := add32 (mul32 36969 (N.land i1 65535)) (N.shiftr i1 16) in
    let i2 := add32 (mul32 18000 (N.land i2 65535)) (N.shiftr i2 16) in
    Ok ([N.lxor (w32 (N.shiftl i1 16)) (N.land i2 65535)], [i1; i2])
  | SUPER_DUPER =>
    do i1 <- aget l 0 ;; do i2 <- aget l 1 ;;
    let i1 := N.lxor i1 (N.land (N.shiftr i1 15) 131071) in
    let i1 := N.lxor i1 (w32 (N.shiftl i1 17)) in
    let i2 := mul32 i2 69069 in
    Ok ([N.lxor i1 i2], [i1; i2])
  | MERSENNE_TWISTER => do (y, l) <- mt_genrand l ;; Ok ([y], l)
  | KNUTH_TAOCP | KNUTH_TAOCP2 => do (v, l) <- kt_next l ;; Ok ([v], l)
  end.

(** rngs_gnu_r.c:169-170 and 841: the constants 2.328306437080797e-10,
    9.31322574615479e-10 and 2.3283064365386963e-10. *)
Definition i2_32m1 : double := @B754_finite 53 1024 false 4503599628419071 (-84) eq_refl.
Definition KT : double := @B754_finite 53 1024 false 4503599627370498 (-82) eq_refl.
Definition MTF : double := @B754_finite 53 1024 false 4503599627370496 (-84) eq_refl.

(** rngs_gnu_r.c:183-189 [fixup]. *)
Definition fixup (x : double) : double :=
  if dle x dzero then dmul dhalf i2_32m1
  else if dle (dsub DoubleModel.done x) dzero then dsub DoubleModel.done (dmul dhalf i2_32m1)
  else x.

(** rngs_gnu_r.c:192-234 [unif_rand], the number. *)
Definition r_unif (k : rkind) (w : list N) : outcome double :=
  let d i := d_of_Z (Z.of_N (nth i w 0)) in
  match k with
  | WICHMANN_HILL =>
    let value := dadd (dadd (ddiv (d 0%nat) (d_of_Z 30269)) (ddiv (d 1%nat) (d_of_Z 30307))) (ddiv (d 2%nat) (d_of_Z 30323)) in
    match dtrunc value with
    | Some z => if (- 2 ^ 31 <=? z)%Z && (z <? 2 ^ 31)%Z then Ok (fixup (dsub value (d_of_Z z))) else UB "conversion to int"
    | None => UB "conversion to int"
    end
  | MARSAGLIA_MULTICARRY | SUPER_DUPER => Ok (fixup (dmul (d 0%nat) i2_32m1))
  | MERSENNE_TWISTER => Ok (fixup (dmul (d 0%nat) MTF))
  | KNUTH_TAOCP | KNUTH_TAOCP2 => Ok (fixup (dmul (d 0%nat) KT))
  end.

(** rngs_gnu_r.c:382-389 [r_rng_get_double]. *)
Definition r_get_double (k : rkind) (dv : list N) : outcome (double * list N) :=
  do (w, l) <- r_words k (firstn (n_seed k) dv) ;;
  do u <- r_unif k w ;;
  Ok (u, l ++ skipn (n_seed k) dv).

(** The conversion of a double to unsigned long. *)
Definition to_ulong (x : double) : outcome N :=
  match dtrunc x with
  | Some z => if (0 <=? z)%Z && (z <? 2 ^ 64)%Z then Ok (Z.to_N z) else UB "conversion to unsigned long"
  | None => UB "conversion to unsigned long"
  end.
(** rngs_gnu_r.c:375-380 [r_rng_get], 495-500 [r_rng_get_taocp] and 525-530
    [r_rng_get_taocp2]; the macro TAOCP2_MAX has no parentheses
    (rngs_gnu_r.c:150). *)
Definition r_scale (k : rkind) (u : double) : double :=
  match k with
  | KNUTH_TAOCP => dmul u (d_of_Z 1073741823)
  | KNUTH_TAOCP2 => dsub (dmul u (d_of_Z 1073741824)) (d_of_Z 1)
  | _ => dmul u (d_of_Z 4294967295)
  end.
Definition r_get (k : rkind) (dv : list N) : outcome (N * list N) :=
  do (u, dv) <- r_get_double k dv ;;
  do j <- to_ulong (r_scale k u) ;;
  Ok (j, dv).
(** The maximum in the generator table. *)
Definition r_max (k : rkind) : N :=
  match k with KNUTH_TAOCP | KNUTH_TAOCP2 => 2 ^ 30 - 1 | _ => 2 ^ 32 - 1 end.

(** ** Seeding *)

(** rngs_gnu_r.c:314-315 and 322-325: the generator that expands the seed. *)
Definition scramble (seed : N) : N := add32 (mul32 69069 seed) 1.
Fixpoint expand (n : nat) (seed : N) : list N :=
  match n with
  | O => []
  | S n => let seed := scramble seed in seed :: expand n seed
  end.
(** rngs_gnu_r.c:239-299 [FixupSeeds], for a generator just initialised; [None]:
    all words are zero and Randomize is called. *)
Definition fixup_seeds (k : rkind) (l : list N) : outcome (option (list N)) :=
  let nz v := if v =? 0 then 1 else v in
  match k with
  | WICHMANN_HILL =>
    do i1 <- aget l 0 ;; do i2 <- aget l 1 ;; do i3 <- aget l 2 ;;
    Ok (Some [nz (i1 mod 30269); nz (i2 mod 30307); nz (i3 mod 30323)])
  | SUPER_DUPER =>
    do i1 <- aget l 0 ;; do i2 <- aget l 1 ;;
    Ok (Some [nz i1; N.lor i2 1])
  | MARSAGLIA_MULTICARRY =>
    do i1 <- aget l 0 ;; do i2 <- aget l 1 ;;
    Ok (Some [nz i1; nz i2])
  | MERSENNE_TWISTER =>
    let l := skipn 1 l in
    if existsb (fun v => negb (v =? 0)) l then Ok (Some (624 :: l)) else Ok None
  | _ => Ok (Some l)
  end.
(** rngs_gnu_r.c:305-361 [RNG_Init], with [Randomize] (364-369); [now] are the
    successive results of time(). *)
Fixpoint rng_init (now : list N) (k : rkind) (seed : N) : outcome (list N) :=
  let seed := N.iter 50 scramble seed in
  match k with
  | KNUTH_TAOCP | KNUTH_TAOCP2 => init_kt seed
  | _ =>
    do r <- fixup_seeds k (expand (n_seed k) seed) ;;
    match r with
    | Some l => Ok l
    | None => match now with [] => OutOfFuel | t :: now => rng_init now k (w32 t) end
    end
  end.
(** rngs_gnu_r.c:392-401 and its five copies: the set functions. *)
Definition r_set (k : rkind) (dv : list N) (s : N) : outcome (list N) :=
  do l <- rng_init [] k (w32 s) ;;
  Ok (l ++ skipn (n_seed k) dv).
