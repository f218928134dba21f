(** Model of libdieharder/rijndael-alg-fst.c (the build defines neither
    FULL_UNROLL nor _MSC_VER) and of libdieharder/rng_aes.c. *)
From Verif Require Export Base AesTables.
Open Scope N_scope.

(** rijndael-alg-fst.c:719 GETU32 at offset [o]. *)
Definition getu32 (p : list N) (o : Z) : outcome N :=
  do a <- aget p o ;; do b <- aget p (o + 1) ;; do c <- aget p (o + 2) ;; do d <- aget p (o + 3) ;;
  Ok (N.lxor (N.lxor (N.lxor (w32 (N.shiftl a 24)) (w32 (N.shiftl b 16))) (w32 (N.shiftl c 8))) d).
(** rijndael-alg-fst.c:720 PUTU32: the four bytes written. *)
Definition putu32 (s : N) : list N :=
  [N.shiftr s 24 mod 256; N.shiftr s 16 mod 256; N.shiftr s 8 mod 256; s mod 256].

Definition b0 (s : N) : N := N.shiftr s 24.
Definition b1 (s : N) : N := N.land (N.shiftr s 16) 0xff.
Definition b2 (s : N) : N := N.land (N.shiftr s 8) 0xff.
Definition b3 (s : N) : N := N.land s 0xff.
Definition look (t : list N) (i : N) : outcome N := aget t (Z.of_N i).

(** The four lookups in one table with their masks (e.g. 739-742, 1006-1010):
    x0..x3 are the indices for the top to the bottom byte. *)
Definition look4 (t : list N) (x0 x1 x2 x3 : N) : outcome N :=
  do a <- look t x0 ;; do b <- look t x1 ;; do c <- look t x2 ;; do d <- look t x3 ;;
  Ok (N.lxor (N.lxor (N.lxor (N.land a 0xff000000) (N.land b 0x00ff0000)) (N.land c 0x0000ff00)) (N.land d 0x000000ff)).
(** One lookup in each of four tables (e.g. 944-949). *)
Definition mix4 (t0 t1 t2 t3 : list N) (x0 x1 x2 x3 : N) : outcome N :=
  do a <- look t0 x0 ;; do b <- look t1 x1 ;; do c <- look t2 x2 ;; do d <- look t3 x3 ;;
  Ok (N.lxor (N.lxor (N.lxor a b) c) d).

(** rk[dst] = rk[a] ^ x *)
Definition put_xor (rk : list N) (dst a : Z) (x : N) : outcome (list N) :=
  do y <- aget rk a ;; aset rk dst (N.lxor y x).
(** rk[dst] = rk[a] ^ rk[b] *)
Definition copy_xor (rk : list N) (dst a b : Z) : outcome (list N) :=
  do x <- aget rk b ;; put_xor rk dst a x.

(** rijndael-alg-fst.c:737-744, 759-766, 781-788: the word after a full key
    period: the substituted, rotated last word and the round constant. *)
Definition core (rk : list N) (last : Z) (i : nat) : outcome N :=
  do temp <- aget rk last ;;
  do x <- look4 Te4 (b1 temp) (b2 temp) (b3 temp) (b0 temp) ;;
  do rc <- aget rcon (Z.of_nat i) ;;
  Ok (N.lxor x rc).

(** rijndael-alg-fst.c:736-753: 128-bit keys; [p] is the offset of rk. *)
Fixpoint ks128 (fuel : nat) (rk : list N) (p : Z) (i : nat) : outcome (list N) :=
  match fuel with
  | O => OutOfFuel
  | S f =>
    do x <- core rk (p + 3) i ;;
    do rk <- put_xor rk (p + 4) p x ;;
    do rk <- copy_xor rk (p + 5) (p + 1) (p + 4) ;;
    do rk <- copy_xor rk (p + 6) (p + 2) (p + 5) ;;
    do rk <- copy_xor rk (p + 7) (p + 3) (p + 6) ;;
    if Nat.eqb (S i) 10 then Ok rk else ks128 f rk (p + 4) (S i)
  end.
(** rijndael-alg-fst.c:757-777: 192-bit keys. *)
Fixpoint ks192 (fuel : nat) (rk : list N) (p : Z) (i : nat) : outcome (list N) :=
  match fuel with
  | O => OutOfFuel
  | S f =>
    do x <- core rk (p + 5) i ;;
    do rk <- put_xor rk (p + 6) p x ;;
    do rk <- copy_xor rk (p + 7) (p + 1) (p + 6) ;;
    do rk <- copy_xor rk (p + 8) (p + 2) (p + 7) ;;
    do rk <- copy_xor rk (p + 9) (p + 3) (p + 8) ;;
    if Nat.eqb (S i) 8 then Ok rk
    else
      do rk <- copy_xor rk (p + 10) (p + 4) (p + 9) ;;
      do rk <- copy_xor rk (p + 11) (p + 5) (p + 10) ;;
      ks192 f rk (p + 6) (S i)
  end.
(** rijndael-alg-fst.c:780-804: 256-bit keys. *)
Fixpoint ks256 (fuel : nat) (rk : list N) (p : Z) (i : nat) : outcome (list N) :=
  match fuel with
  | O => OutOfFuel
  | S f =>
    do x <- core rk (p + 7) i ;;
    do rk <- put_xor rk (p + 8) p x ;;
    do rk <- copy_xor rk (p + 9) (p + 1) (p + 8) ;;
    do rk <- copy_xor rk (p + 10) (p + 2) (p + 9) ;;
    do rk <- copy_xor rk (p + 11) (p + 3) (p + 10) ;;
    if Nat.eqb (S i) 7 then Ok rk
    else
      do temp <- aget rk (p + 11) ;;
      do x <- look4 Te4 (b0 temp) (b1 temp) (b2 temp) (b3 temp) ;;
      do rk <- put_xor rk (p + 12) (p + 4) x ;;
      do rk <- copy_xor rk (p + 13) (p + 5) (p + 12) ;;
      do rk <- copy_xor rk (p + 14) (p + 6) (p + 13) ;;
      do rk <- copy_xor rk (p + 15) (p + 7) (p + 14) ;;
      ks256 f rk (p + 8) (S i)
  end.
(** Copying key words k, k+1, ... k+n-1 into rk. *)
Fixpoint key_words (n : nat) (k : nat) (rk key : list N) : outcome (list N) :=
  match n with
  | O => Ok rk
  | S m =>
    do x <- getu32 key (4 * Z.of_nat k) ;;
    do rk <- aset rk (Z.of_nat k) x ;;
    key_words m (S k) rk key
  end.
(** rijndael-alg-fst.c:728-807 [rijndaelKeySetupEnc]: [rk] is the caller's
    array; the result is the number of rounds and the array. *)
Definition key_setup_enc (rk key : list N) (keyBits : N) : outcome (nat * list N) :=
  do rk <- key_words 4 0 rk key ;;
  if keyBits =? 128 then do rk <- ks128 10 rk 0 0 ;; Ok (10%nat, rk)
  else
    do rk <- key_words 2 4 rk key ;;
    if keyBits =? 192 then do rk <- ks192 8 rk 0 0 ;; Ok (12%nat, rk)
    else
      do rk <- key_words 2 6 rk key ;;
      if keyBits =? 256 then do rk <- ks256 7 rk 0 0 ;; Ok (14%nat, rk)
      else Ok (0%nat, rk).

(** rijndael-alg-fst.c:821-826: swap the round keys i/4 and j/4. *)
Definition swap1 (rk : list N) (i j : Z) : outcome (list N) :=
  do a <- aget rk i ;; do b <- aget rk j ;; do rk <- aset rk i b ;; aset rk j a.
Fixpoint reverse_keys (fuel : nat) (rk : list N) (i j : Z) : outcome (list N) :=
  match fuel with
  | O => OutOfFuel
  | S f =>
    if (i <? j)%Z then
      do rk <- swap1 rk i j ;; do rk <- swap1 rk (i + 1) (j + 1) ;;
      do rk <- swap1 rk (i + 2) (j + 2) ;; do rk <- swap1 rk (i + 3) (j + 3) ;;
      reverse_keys f rk (i + 4) (j - 4)
    else Ok rk
  end.
(** rijndael-alg-fst.c:830-849: inverse MixColumn of one word of the key, by
    table composition. *)
Definition inv_mix_word (x : N) : outcome N :=
  do a <- look Te4 (b0 x) ;; do b <- look Te4 (b1 x) ;; do c <- look Te4 (b2 x) ;; do d <- look Te4 (b3 x) ;;
  mix4 Td0 Td1 Td2 Td3 (N.land a 0xff) (N.land b 0xff) (N.land c 0xff) (N.land d 0xff).
Definition inv_mix_at (rk : list N) (p : Z) : outcome (list N) :=
  do x <- aget rk p ;; do y <- inv_mix_word x ;; aset rk p y.
Fixpoint inv_mix_keys (n : nat) (rk : list N) (p : Z) : outcome (list N) :=
  match n with
  | O => Ok rk
  | S m =>
    do rk <- inv_mix_at rk p ;; do rk <- inv_mix_at rk (p + 1) ;;
    do rk <- inv_mix_at rk (p + 2) ;; do rk <- inv_mix_at rk (p + 3) ;;
    inv_mix_keys m rk (p + 4)
  end.
(** rijndael-alg-fst.c:814-852 [rijndaelKeySetupDec]. *)
Definition key_setup_dec (rk key : list N) (keyBits : N) : outcome (nat * list N) :=
  do (Nr, rk) <- key_setup_enc rk key keyBits ;;
  do rk <- reverse_keys (Nr + 1) rk 0 (4 * Z.of_nat Nr) ;;
  do rk <- inv_mix_keys (Nr - 1) rk 4 ;;
  Ok (Nr, rk).

Definition words : Type := N * N * N * N.
(** Adding the round key at offset p. *)
Definition add_key (rk : list N) (p : Z) (s : words) : outcome words :=
  let '(s0, s1, s2, s3) := s in
  do k0 <- aget rk p ;; do k1 <- aget rk (p + 1) ;; do k2 <- aget rk (p + 2) ;; do k3 <- aget rk (p + 3) ;;
  Ok (N.lxor s0 k0, N.lxor s1 k1, N.lxor s2 k2, N.lxor s3 k3).
Definition load (p : list N) : outcome words :=
  do s0 <- getu32 p 0 ;; do s1 <- getu32 p 4 ;; do s2 <- getu32 p 8 ;; do s3 <- getu32 p 12 ;; Ok (s0, s1, s2, s3).
(** rijndael-alg-fst.c:944-967 and 974-997: one full round. *)
Definition enc_round (rk : list N) (p : Z) (s : words) : outcome words :=
  let '(s0, s1, s2, s3) := s in
  do t0 <- mix4 Te0 Te1 Te2 Te3 (b0 s0) (b1 s1) (b2 s2) (b3 s3) ;;
  do t1 <- mix4 Te0 Te1 Te2 Te3 (b0 s1) (b1 s2) (b2 s3) (b3 s0) ;;
  do t2 <- mix4 Te0 Te1 Te2 Te3 (b0 s2) (b1 s3) (b2 s0) (b3 s1) ;;
  do t3 <- mix4 Te0 Te1 Te2 Te3 (b0 s3) (b1 s0) (b2 s1) (b3 s2) ;;
  add_key rk p (t0, t1, t2, t3).
(** rijndael-alg-fst.c:942-998: returns t0..t3 and the offset of rk. *)
Fixpoint enc_loop (fuel : nat) (rk : list N) (p : Z) (r : Z) (s : words) : outcome (words * Z) :=
  match fuel with
  | O => OutOfFuel
  | S f =>
    do t <- enc_round rk (p + 4) s ;;
    let p := (p + 8)%Z in
    let r := (r - 1)%Z in
    if (r =? 0)%Z then Ok (t, p)
    else do s <- enc_round rk p t ;; enc_loop f rk p r s
  end.
(** rijndael-alg-fst.c:1005-1032: last round. *)
Definition enc_last (rk : list N) (p : Z) (t : words) : outcome words :=
  let '(t0, t1, t2, t3) := t in
  do s0 <- look4 Te4 (b0 t0) (b1 t1) (b2 t2) (b3 t3) ;;
  do s1 <- look4 Te4 (b0 t1) (b1 t2) (b2 t3) (b3 t0) ;;
  do s2 <- look4 Te4 (b0 t2) (b1 t3) (b2 t0) (b3 t1) ;;
  do s3 <- look4 Te4 (b0 t3) (b1 t0) (b2 t1) (b3 t2) ;;
  add_key rk p (s0, s1, s2, s3).
Definition store (s : words) : list N :=
  let '(s0, s1, s2, s3) := s in putu32 s0 ++ putu32 s1 ++ putu32 s2 ++ putu32 s3.
(** rijndael-alg-fst.c:854-1033 [rijndaelEncrypt].  All of pt is read before
    the first byte of ct is written, so the two may be the same array. *)
Definition encrypt (rk : list N) (Nr : nat) (pt : list N) : outcome (list N) :=
  do s <- load pt ;;
  do s <- add_key rk 0 s ;;
  do (t, p) <- enc_loop (S Nr) rk 0 (Z.of_nat (Nat.div2 Nr)) s ;;
  do s <- enc_last rk p t ;;
  Ok (store s).

(** rijndael-alg-fst.c:1127-1150 and 1157-1180. *)
Definition dec_round (rk : list N) (p : Z) (s : words) : outcome words :=
  let '(s0, s1, s2, s3) := s in
  do t0 <- mix4 Td0 Td1 Td2 Td3 (b0 s0) (b1 s3) (b2 s2) (b3 s1) ;;
  do t1 <- mix4 Td0 Td1 Td2 Td3 (b0 s1) (b1 s0) (b2 s3) (b3 s2) ;;
  do t2 <- mix4 Td0 Td1 Td2 Td3 (b0 s2) (b1 s1) (b2 s0) (b3 s3) ;;
  do t3 <- mix4 Td0 Td1 Td2 Td3 (b0 s3) (b1 s2) (b2 s1) (b3 s0) ;;
  add_key rk p (t0, t1, t2, t3).
(** rijndael-alg-fst.c:1125-1181. *)
Fixpoint dec_loop (fuel : nat) (rk : list N) (p : Z) (r : Z) (s : words) : outcome (words * Z) :=
  match fuel with
  | O => OutOfFuel
  | S f =>
    do t <- dec_round rk (p + 4) s ;;
    let p := (p + 8)%Z in
    let r := (r - 1)%Z in
    if (r =? 0)%Z then Ok (t, p)
    else do s <- dec_round rk p t ;; dec_loop f rk p r s
  end.
(** rijndael-alg-fst.c:1187-1213. *)
Definition dec_last (rk : list N) (p : Z) (t : words) : outcome words :=
  let '(t0, t1, t2, t3) := t in
  do s0 <- look4 Td4 (b0 t0) (b1 t3) (b2 t2) (b3 t1) ;;
  do s1 <- look4 Td4 (b0 t1) (b1 t0) (b2 t3) (b3 t2) ;;
  do s2 <- look4 Td4 (b0 t2) (b1 t1) (b2 t0) (b3 t3) ;;
  do s3 <- look4 Td4 (b0 t3) (b1 t2) (b2 t1) (b3 t0) ;;
  add_key rk p (s0, s1, s2, s3).
(** rijndael-alg-fst.c:1035-1214 [rijndaelDecrypt]. *)
Definition decrypt (rk : list N) (Nr : nat) (ct : list N) : outcome (list N) :=
  do s <- load ct ;;
  do s <- add_key rk 0 s ;;
  do (t, p) <- dec_loop (S Nr) rk 0 (Z.of_nat (Nat.div2 Nr)) s ;;
  do s <- dec_last rk p t ;;
  Ok (store s).

(** ** The generator AES_OFB *)
Record aes_state := { a_rk : list N; a_block : list N; a_pos : N }.
(** rng_aes.c:64-82 [aes_set]; [s] is the 64-bit seed. *)
Definition aes_key (s : N) : list N :=
  map (fun i => (112 + N.of_nat i + N.shiftr s (N.of_nat ((5 * i) mod 26)%nat)) mod 2 ^ 64 mod 256) (seq 0 16).
Definition aes_set (s : N) : outcome aes_state :=
  do (_, rk) <- key_setup_enc (repeat 0 44) (aes_key s) 128 ;;
  do b <- encrypt rk 10 (repeat 0 16) ;;
  Ok {| a_rk := rk; a_block := b; a_pos := 0 |}.
(** rng_aes.c:42-56 [aes_get]: the word is read in the machine's byte order,
    taken as little endian. *)
Definition aes_get (st : aes_state) : outcome (N * aes_state) :=
  do st <- (if 16 <? a_pos st + 4 then
              do b <- encrypt (a_rk st) 10 (a_block st) ;; Ok {| a_rk := a_rk st; a_block := b; a_pos := 0 |}
            else Ok st) ;;
  let p := Z.of_N (a_pos st) in
  do x0 <- aget (a_block st) p ;; do x1 <- aget (a_block st) (p + 1) ;;
  do x2 <- aget (a_block st) (p + 2) ;; do x3 <- aget (a_block st) (p + 3) ;;
  Ok (x0 + 2 ^ 8 * x1 + 2 ^ 16 * x2 + 2 ^ 24 * x3, {| a_rk := a_rk st; a_block := a_block st; a_pos := a_pos st + 4 |}).
(** n calls of [aes_get] in sequence. *)
Fixpoint aes_outputs (n : nat) (st : aes_state) : outcome (list N * aes_state) :=
  match n with
  | O => Ok ([], st)
  | S n => do (x, st) <- aes_get st ;; do (l, st) <- aes_outputs n st ;; Ok (x :: l, st)
  end.
