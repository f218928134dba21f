(** Model of the generators of libdieharder that keep a small integer state:
    XOR, kiss, superkiss, uvag and the /dev/*random wrappers, and of the code
    that measures the width of a generator.  The generator mt19937_1999 of the
    GSL, from which most of them are seeded, is a parameter:
    [mt seed n] is the n-th number drawn from it after gsl_rng_set(rng, seed). *)
From Verif Require Export StreamModel.
Open Scope N_scope.

(** ** Width of the selected generator *)

(** choose_rng.c:262-271 (also 443-452 and rng_uvag.c:149-158): random_max is
    an unsigned int, so the maximum is taken modulo 2^32; then the loop
    [while(rmax)] counts bits and builds the mask.  Every round halves rmax, so
    33 rounds are enough. *)
Fixpoint rmax_loop (fuel : nat) (rmax bits mask : N) : outcome (N * N) :=
  match fuel with
  | O => OutOfFuel
  | S fuel' =>
    if rmax =? 0 then Ok (bits, mask)
    else rmax_loop fuel' (N.shiftr rmax 1) (add32 bits 1) (add32 (w32 (N.shiftl mask 1)) 1)
  end.
Definition measure_rmax (max : N) : outcome (N * N) := rmax_loop 33 (w32 max) 0 0.

(** ** Drawing from a generator *)

(** [n] calls of a get function. *)
Fixpoint draws {S} (get : S -> outcome (N * S)) (n : nat) (s : S) : outcome (list N * S) :=
  match n with
  | O => Ok ([], s)
  | Datatypes.S n' =>
    do (v, s) <- get s ;;
    do (vs, s) <- draws get n' s ;;
    Ok (v :: vs, s)
  end.

(** ** XOR (rng_XOR.c) *)
Section Xor.
(** [gen i n] is the n-th number drawn from component i since it was seeded;
    the result of gsl_rng_get is an unsigned long. *)
Variable gen : nat -> nat -> N.
Variable gvcount : nat.    (** global: number of -g options, XOR itself included *)

(** The state of the components: how often each has been drawn from. *)
Definition xpos := nat -> nat.
Definition bump_pos (p : xpos) (i : nat) : xpos := fun j => if Nat.eqb i j then Datatypes.S (p j) else p j.

(** gsl_rng_get(state->grngs[i]): XOR_set allocates grngs[1..gvcount-1] only
    (rng_XOR.c:70-80; grngs[0] is the seeding generator). *)
Definition xor_component (p : xpos) (i : nat) : outcome (N * xpos) :=
  if Nat.ltb i gvcount && Nat.leb 1 i then Ok (gen i (p i), bump_pos p i)
  else UB "generator never allocated".

(** rng_XOR.c:43-45, the loop from [i] on for [n] rounds. *)
Fixpoint xor_loop (n i : nat) (rnd : N) (p : xpos) : outcome (N * xpos) :=
  match n with
  | O => Ok (rnd, p)
  | Datatypes.S n' =>
    do (v, p) <- xor_component p i ;;
    xor_loop n' (Datatypes.S i) (N.lxor rnd (w32 v)) p
  end.
(** rng_XOR.c:32-48 [XOR_get]. *)
Definition XOR_get (p : xpos) : outcome (N * xpos) :=
  do (v, p) <- xor_component p 1 ;;
  xor_loop (gvcount - 1) 1 (w32 v) p.
End Xor.

(** ** kiss (rng_kiss.c) *)
Record kstate := mkK { kx : N; ky : N; kz : N; kc : N }.

(** rng_kiss.c:50-52: [y ^= y<<5; y ^= y>>7; y ^= y<<22] on unsigned int. *)
Definition xorshl (s : N) (y : N) : N := N.lxor y (w32 (N.shiftl y s)).
Definition xorshr (s : N) (y : N) : N := N.lxor y (N.shiftr y s).
Definition kiss_shift (y : N) : N := xorshl 22 (xorshr 7 (xorshl 5 y)).
(** rng_kiss.c:44-58 [kiss_get]; [t] is an unsigned long long. *)
Definition kiss_get (s : kstate) : outcome (N * kstate) :=
  let x := add32 (mul32 314527869 (kx s)) 1234567 in
  let y := kiss_shift (ky s) in
  let t := w64 (w64 (4294584393 * kz s) + kc s) in
  let c := w32 (N.shiftr t 32) in
  let z := w32 t in
  Ok (add32 (add32 x y) z, mkK x y z c).

Section Seeded.
Variable mt : N -> nat -> N.

(** rng_kiss.c:87: draw until the number is not zero.  [fuel] bounds the number
    of draws. *)
Fixpoint kiss_seed_y (fuel : nat) (seed : N) (pos : nat) : outcome (N * nat) :=
  match fuel with
  | O => OutOfFuel
  | S fuel' =>
    let y := w32 (mt seed pos) in
    if y =? 0 then kiss_seed_y fuel' seed (Datatypes.S pos) else Ok (y, Datatypes.S pos)
  end.
(** rng_kiss.c:65-100 [kiss_set]: [seed_seed] is an unsigned int. *)
Definition kiss_set (fuel : nat) (old : kstate) (s : N) : outcome kstate :=
  let seed := w32 s in
  let x := w32 (mt seed 0) in
  do (y, pos) <- kiss_seed_y fuel seed 1 ;;
  let z := w32 (mt seed pos) in
  let c := w32 (mt seed (Datatypes.S pos) mod 698769068 + 1) in
  Ok (mkK x y z c).

(** ** superkiss (rng_superkiss.c) *)
Record skstate := mkSK { skQ : list N; skindx : N; skcarry : N; skcng : N; skxs : N }.
Definition QMAX : N := 41790.

(** rng_superkiss.c:56-60: the refill loop over the array, in place. *)
Fixpoint sk_refill (q : list N) (carry : N) : list N * N :=
  match q with
  | [] => ([], carry)
  | v :: q' =>
    let t := w64 (w64 (7010176 * v) + carry) in
    let '(q2, c) := sk_refill q' (w32 (N.shiftr t 32)) in
    (w32 (2 ^ 64 - 1 - t) :: q2, c)
  end.
(** rng_superkiss.c:74-76: [xs ^= xs<<13; xs ^= xs>>17; xs ^= xs>>5]. *)
Definition sk_shift (x : N) : N := xorshr 5 (xorshr 17 (xorshl 13 x)).
(** rng_superkiss.c:67-80 [superkiss_get].  The two arms of the conditional are
    an unsigned int and an unsigned long, so its value and the sum are
    unsigned long: no reduction modulo 2^32. *)
Definition superkiss_get (s : skstate) : outcome (N * skstate) :=
  let cng := add32 (mul32 69069 (skcng s)) 123 in
  let xs := sk_shift (skxs s) in
  if skindx s <? QMAX then
    do v <- aget (skQ s) (Z.of_N (skindx s)) ;;
    Ok (w64 (v + cng + xs), mkSK (skQ s) (skindx s + 1) (skcarry s) cng xs)
  else
    let '(q, c) := sk_refill (skQ s) (skcarry s) in
    do v <- aget q 0 ;;
    Ok (w64 (v + cng + xs), mkSK q 1 c cng xs).
(** rng_superkiss.c:89-117 [superkiss_set]. *)
Definition superkiss_set (old : skstate) (s : N) : skstate :=
  mkSK (map (fun i => w32 (mt (w32 s) i)) (seq 0 (N.to_nat QMAX))) QMAX 362436 1236789 521288629.

(** ** uvag (rng_uvag.c) *)

(** The globals of rng_uvag.c:98-100; svec has 255 + 4 bytes. *)
Record uvstate := mkUV { uvec : list N; uindex : N; urnd : N }.
Definition ULEN : N := 259.

(** Four bytes from offset [p] as an unsigned int of a little-endian machine,
    and their update.  The program reads them through an unsigned int pointer
    that need not be aligned; the model gives that access its usual meaning. *)
Definition read4 (v : list N) (p : N) : outcome N :=
  do a <- aget v (Z.of_N p) ;; do b <- aget v (Z.of_N (p + 1)) ;;
  do c <- aget v (Z.of_N (p + 2)) ;; do d <- aget v (Z.of_N (p + 3)) ;;
  Ok (a + 2 ^ 8 * b + 2 ^ 16 * c + 2 ^ 24 * d).
Definition write4 (v : list N) (p w : N) : outcome (list N) :=
  do v <- aset v (Z.of_N p) (w mod 256) ;;
  do v <- aset v (Z.of_N (p + 1)) ((w / 2 ^ 8) mod 256) ;;
  do v <- aset v (Z.of_N (p + 2)) ((w / 2 ^ 16) mod 256) ;;
  aset v (Z.of_N (p + 3)) ((w / 2 ^ 24) mod 256).
(** rng_uvag.c:102-113 [uvag_get]; sindex is an unsigned char. *)
Definition uvag_get (s : uvstate) : outcome (N * uvstate) :=
  let i := (uindex s + 1) mod 256 in
  do p <- aget (uvec s) (Z.of_N i) ;;
  do w <- read4 (uvec s) p ;;
  let w := add32 w (urnd s) in
  do v <- write4 (uvec s) p w ;;
  let r := add32 (urnd s) w in
  Ok (r, mkUV v i r).

(** rng_uvag.c:159-168: 256 requests for 8 bits into an unsigned int; the last
    byte of the key is a 0.  The requests go through the static buffers of
    get_rand_bits ([b]), in front of the freshly seeded generator. *)
Fixpoint uvag_key (n i : nat) (g : N -> N) (rbits : N) (b : bstate) : outcome (list N * bstate) :=
  match n with
  | O => Ok ([], b)
  | Datatypes.S n' =>
    do (r, b) <- get_rand_bits g rbits 4 8 b ;;
    do (rest, b) <- uvag_key n' (Datatypes.S i) g rbits b ;;
    Ok ((if Nat.eqb i 255 then 0 else nth 0 r 0 (* (unsigned char) tmp8 *)) :: rest, b)
  end.

(** rng_uvag.c:173-183: the shuffle; [kp] is the index into the key. *)
Fixpoint uvag_shuffle (n i : nat) (key : list N) (kp : nat) (tot : N) (v : list N) : outcome (list N) :=
  match n with
  | O => Ok v
  | Datatypes.S n' =>
    do k <- aget key (Z.of_nat kp) ;;
    let kp := Datatypes.S kp in
    let tot := add32 tot k mod ULEN in
    do temp <- aget v (Z.of_N tot) ;;
    do vi <- aget v (Z.of_nat i) ;;
    do v <- aset v (Z.of_N tot) vi ;;
    do v <- aset v (Z.of_nat i) temp ;;
    do k <- aget key (Z.of_nat kp) ;;
    let kp := if k =? 0 then O else kp in
    uvag_shuffle n' (Datatypes.S i) key kp tot v
  end.

(** What uvag_set changes besides the generator: the static bit buffers. *)
Definition at_pos (b : bstate) (n : N) : bstate :=
  mkB (mkU (bits_rand0 (bu b)) (bits_rand1 (bu b)) (bleft (bu b)) n)
      (randbuf b) (brindex b) (iclear b) (bitindex b).
(** rng_uvag.c:121-196 [uvag_set].  [b] holds the bit buffers of
    libdieharder/bits.c, which are shared with every other user of
    get_rand_bits; the generator behind them is the new one, at position 0.
    The maximum of mt19937_1999 is 2^32 - 1. *)
Definition uvag_set (b : bstate) (old : uvstate) (s : N) : outcome (uvstate * bstate) :=
  do (rbits, mask) <- measure_rmax (2 ^ 32 - 1) ;;
  do (key, b) <- uvag_key 256 0 (fun i => mt (w32 s) (N.to_nat i)) rbits (at_pos b 0) ;;
  do v <- uvag_shuffle (N.to_nat ULEN) 0 key 0 0
            (map (fun i => N.of_nat i mod 256) (seq 0 (N.to_nat ULEN))) ;;
  Ok (mkUV v 0 0, b).
End Seeded.

(** ** /dev/random and its variants (rng_dev_random.c, rng_dev_urandom.c,
    rng_dev_arandom.c) *)

(** The rest of the device: the bytes it will deliver.  [sizeof j] is 8 for an
    unsigned long.  fread's result is not looked at: when fewer than 8 bytes
    come back, [j] keeps indeterminate bytes.
    rng_dev_random.c:20-34 [dev_random_get] (fp is never NULL after
    dev_random_set). *)
Definition dev_random_get (dev : list N) : outcome (N * list N) :=
  match dev with
  | a :: b :: c :: d :: e :: f :: g :: h :: dev =>
    Ok (a + 2 ^ 8 * b + 2 ^ 16 * c + 2 ^ 24 * d + 2 ^ 32 * e + 2 ^ 40 * f + 2 ^ 48 * g + 2 ^ 56 * h, dev)
  | _ => UB "indeterminate value returned"
  end.
