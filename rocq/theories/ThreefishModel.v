From Verif Require Export Base.
Open Scope N_scope.

(** * Threefish-512 in its reference form (skein_block_ref.c) and its unrolled
    form (skein_block64.c), and the generator Threefish_OFB (rng_threefish.c).
    Little-endian machine, as the generator's word reads presuppose. *)

(** skein_port.h:25 [RotL_64]; the rotation counts are literals between 7 and 58. *)
Definition rotl64 (x n : N) : N := N.lor (w64 (N.shiftl x n)) (N.shiftr x (64 - n)).
(** skein.h:173 [SKEIN_KS_PARITY] *)
Definition parity : N := 0x5555555555555555.

(** skein_port.h:58 [Skein_Get64_LSB_First] on a little-endian machine: eight
    words copied from byte offset [off]. *)
Definition get64 (input : list N) (off : Z) : outcome N :=
  do b0 <- aget input off ;; do b1 <- aget input (off + 1) ;; do b2 <- aget input (off + 2) ;; do b3 <- aget input (off + 3) ;;
  do b4 <- aget input (off + 4) ;; do b5 <- aget input (off + 5) ;; do b6 <- aget input (off + 6) ;; do b7 <- aget input (off + 7) ;;
  Ok (b0 + 256 * (b1 + 256 * (b2 + 256 * (b3 + 256 * (b4 + 256 * (b5 + 256 * (b6 + 256 * b7))))))).
Fixpoint get64s (n : nat) (input : list N) (off : Z) : outcome (list N) :=
  match n with
  | O => Ok []
  | S n => do x <- get64 input off ;; do l <- get64s n input (off + 8) ;; Ok (x :: l)
  end.

(** ** Reference *)
(** skein_block_ref.c:52-56: the key schedule. *)
Fixpoint ref_keys (n : nat) (i : Z) (ks key : list N) : outcome (list N) :=
  match n with
  | O => Ok ks
  | S n =>
    do k <- aget key i ;; do ks <- aset ks i k ;;
    do p <- aget ks 8 ;; do ks <- aset ks 8 (N.lxor p k) ;;
    ref_keys n (i + 1) ks key
  end.
Definition ref_schedule (key : list N) : outcome (list N) :=
  do ks <- aset (repeat 0 9) 8 parity ;; ref_keys 8 0 ks key.
(** skein_block_ref.c:57-59 *)
Definition ref_tweak (T : list N) : outcome (list N) :=
  do t0 <- aget T 0 ;; do t1 <- aget T 1 ;; Ok [t0; t1; N.lxor t0 t1].
(** One line of a round, skein_block_ref.c:71: X[a] += X[b]; X[b] = RotL_64(X[b],r); X[b] ^= X[a]; *)
Definition ref_mix (X : list N) (m : Z * Z * N) : outcome (list N) :=
  let '(a, b, r) := m in
  do xa <- aget X a ;; do xb <- aget X b ;; do X <- aset X a (w64 (xa + xb)) ;;
  do xb <- aget X b ;; do X <- aset X b (rotl64 xb r) ;;
  do xb <- aget X b ;; do xa <- aget X a ;; aset X b (N.lxor xb xa).
Fixpoint ref_mixes (X : list N) (l : list (Z * Z * N)) : outcome (list N) :=
  match l with [] => Ok X | m :: l => do X <- ref_mix X m ;; ref_mixes X l end.
(** X[i] += x *)
Definition add_at (X : list N) (i : Z) (x : N) : outcome (list N) :=
  do y <- aget X i ;; aset X i (w64 (y + x)).
(** skein_block_ref.c:31-36 [InjectKey]. *)
Fixpoint ref_inject_keys (n : nat) (i r : N) (ks X : list N) : outcome (list N) :=
  match n with
  | O => Ok X
  | S n => do k <- aget ks (Z.of_N ((r + i) mod 9)) ;; do X <- add_at X (Z.of_N i) k ;; ref_inject_keys n (i + 1) r ks X
  end.
Definition ref_inject (ks ts X : list N) (r : N) : outcome (list N) :=
  do X <- ref_inject_keys 8 0 r ks X ;;
  do t <- aget ts (Z.of_N ((r + 0) mod 3)) ;; do X <- add_at X 5 t ;;
  do t <- aget ts (Z.of_N ((r + 1) mod 3)) ;; do X <- add_at X 6 t ;;
  add_at X 7 r.
(** skein_block_ref.c:71-89 and 92-110: the two groups of four rounds. *)
Definition ref_first : list (Z * Z * N) :=
  [(0, 1, 38%N); (2, 3, 30%N); (4, 5, 50%N); (6, 7, 53%N);
   (2, 1, 48%N); (4, 7, 20%N); (6, 5, 43%N); (0, 3, 31%N);
   (4, 1, 34%N); (6, 3, 14%N); (0, 5, 15%N); (2, 7, 27%N);
   (6, 1, 26%N); (0, 7, 12%N); (2, 5, 58%N); (4, 3, 7%N)]%Z.
Definition ref_second : list (Z * Z * N) :=
  [(0, 1, 33%N); (2, 3, 49%N); (4, 5, 8%N); (6, 7, 42%N);
   (2, 1, 39%N); (4, 7, 27%N); (6, 5, 41%N); (0, 3, 14%N);
   (4, 1, 29%N); (6, 3, 26%N); (0, 5, 11%N); (2, 7, 9%N);
   (6, 1, 33%N); (0, 7, 51%N); (2, 5, 39%N); (4, 3, 35%N)]%Z.
(** skein_block_ref.c:70-112: the loop r = 1 .. 9. *)
Fixpoint ref_rounds (n : nat) (r : N) (ks ts X : list N) : outcome (list N) :=
  match n with
  | O => Ok X
  | S n =>
    do X <- ref_mixes X ref_first ;; do X <- ref_inject ks ts X (2 * r - 1) ;;
    do X <- ref_mixes X ref_second ;; do X <- ref_inject ks ts X (2 * r) ;;
    ref_rounds n (r + 1) ks ts X
  end.
(** skein_block_ref.c:63-67 *)
Fixpoint ref_first_keys (n : nat) (i : Z) (ks w : list N) : outcome (list N) :=
  match n with
  | O => Ok []
  | S n => do x <- aget w i ;; do k <- aget ks i ;; do l <- ref_first_keys n (i + 1) ks w ;; Ok (w64 (x + k) :: l)
  end.
Definition ref_block (ks ts w : list N) : outcome (list N) :=
  do X <- ref_first_keys 8 0 ks w ;;
  do t <- aget ts 0 ;; do X <- add_at X 5 t ;;
  do t <- aget ts 1 ;; do X <- add_at X 6 t ;;
  ref_rounds 9 1 ks ts X.
(** The loop over the blocks, do ... while (--blkCnt) with blkCnt a 64-bit
    size_t. The words of the successive output blocks are collected in a list;
    the output buffer is taken to be large enough. *)
Fixpoint each_block (fuel : nat) (block : list N -> outcome (list N)) (input : list N) (off : Z) (cnt : N) : outcome (list N) :=
  match fuel with
  | O => OutOfFuel
  | S fuel =>
    do w <- get64s 8 input off ;; do X <- block w ;;
    let cnt := w64 (cnt + (2 ^ 64 - 1)) in
    if cnt =? 0 then Ok X else do l <- each_block fuel block input (off + 64) cnt ;; Ok (X ++ l)
  end.
(** skein_block_ref.c:40-122 [Threefish_512_Process_Blocks]. *)
Definition process_blocks (fuel : nat) (T key input : list N) (cnt : N) : outcome (list N) :=
  do ks <- ref_schedule key ;; do ts <- ref_tweak T ;;
  each_block fuel (ref_block ks ts) input 0 cnt.

(** ** Unrolled *)
(** The registers X0 .. X7. *)
Definition reg (X : list N) (i : nat) : N := nth i X 0.
(** One line of skein_block64.c:106-110 [Round512]. *)
Definition mix64 (X : list N) (p q : nat) (r : N) : list N :=
  let X := set_nth X p (w64 (reg X p + reg X q)) in
  let X := set_nth X q (rotl64 (reg X q) r) in
  set_nth X q (N.lxor (reg X q) (reg X p)).
Definition round512 (p0 p1 p2 p3 p4 p5 p6 p7 : nat) (r0 r1 r2 r3 : N) (X : list N) : list N :=
  let X := mix64 X p0 p1 r0 in
  let X := mix64 X p2 p3 r1 in
  let X := mix64 X p4 p5 r2 in
  mix64 X p6 p7 r3.
(** skein_block64.c:117-126 [I512], the unrolled form: SKEIN_LOOP is 001, so SKEIN_UNROLL_512 is 0. *)
Definition i512 (ks ts : list N) (R : nat) (X : list N) : outcome (list N) :=
  let key i := aget ks (Z.of_nat (Nat.modulo (R + i) 9)) in
  do k1 <- key 1%nat ;; do k2 <- key 2%nat ;; do k3 <- key 3%nat ;; do k4 <- key 4%nat ;;
  do k5 <- key 5%nat ;; do k6 <- key 6%nat ;; do k7 <- key 7%nat ;; do k8 <- key 8%nat ;;
  do t1 <- aget ts (Z.of_nat (Nat.modulo (R + 1) 3)) ;; do t2 <- aget ts (Z.of_nat (Nat.modulo (R + 2) 3)) ;;
  Ok [w64 (reg X 0 + k1); w64 (reg X 1 + k2); w64 (reg X 2 + k3); w64 (reg X 3 + k4); w64 (reg X 4 + k5);
      w64 (reg X 5 + w64 (k6 + t1)); w64 (reg X 6 + w64 (k7 + t2)); w64 (reg X 7 + w64 (w64 (k8 + N.of_nat R) + 1))].
(** skein_block64.c:148-158 [R512_8_rounds]. *)
Definition rounds8 (ks ts : list N) (R : nat) (X : list N) : outcome (list N) :=
  let X := round512 0 1 2 3 4 5 6 7 38 30 50 53 X in
  let X := round512 2 1 4 7 6 5 0 3 48 20 43 31 X in
  let X := round512 4 1 6 3 0 5 2 7 34 14 15 27 X in
  let X := round512 6 1 0 7 2 5 4 3 26 12 58 7 X in
  do X <- i512 ks ts (2 * R) X ;;
  let X := round512 0 1 2 3 4 5 6 7 33 49 8 42 X in
  let X := round512 2 1 4 7 6 5 0 3 39 27 41 14 X in
  let X := round512 4 1 6 3 0 5 2 7 29 26 11 9 X in
  let X := round512 6 1 0 7 2 5 4 3 33 51 39 35 X in
  i512 ks ts (2 * R + 1) X.
(** skein_block64.c:93-100 and 160-187: rounds 0 .. 8. *)
Definition block64 (ks ts w : list N) : outcome (list N) :=
  do k0 <- aget ks 0 ;; do k1 <- aget ks 1 ;; do k2 <- aget ks 2 ;; do k3 <- aget ks 3 ;;
  do k4 <- aget ks 4 ;; do k5 <- aget ks 5 ;; do k6 <- aget ks 6 ;; do k7 <- aget ks 7 ;;
  do t0 <- aget ts 0 ;; do t1 <- aget ts 1 ;;
  let X := [w64 (reg w 0 + k0); w64 (reg w 1 + k1); w64 (reg w 2 + k2); w64 (reg w 3 + k3); w64 (reg w 4 + k4);
            w64 (w64 (reg w 5 + k5) + t0); w64 (w64 (reg w 6 + k6) + t1); w64 (reg w 7 + k7)] in
  do X <- rounds8 ks ts 0 X ;; do X <- rounds8 ks ts 1 X ;; do X <- rounds8 ks ts 2 X ;;
  do X <- rounds8 ks ts 3 X ;; do X <- rounds8 ks ts 4 X ;; do X <- rounds8 ks ts 5 X ;;
  do X <- rounds8 ks ts 6 X ;; do X <- rounds8 ks ts 7 X ;; rounds8 ks ts 8 X.
(** skein_block64.c:43-230 [Threefish_512_Process_Blocks64]; lines 73-88 fill the schedule. *)
Definition process_blocks64 (fuel : nat) (T key input : list N) (cnt : N) : outcome (list N) :=
  do t0 <- aget T 0 ;; do t1 <- aget T 1 ;;
  do k0 <- aget key 0 ;; do k1 <- aget key 1 ;; do k2 <- aget key 2 ;; do k3 <- aget key 3 ;;
  do k4 <- aget key 4 ;; do k5 <- aget key 5 ;; do k6 <- aget key 6 ;; do k7 <- aget key 7 ;;
  let k8 := N.lxor (N.lxor (N.lxor (N.lxor (N.lxor (N.lxor (N.lxor (N.lxor k0 k1) k2) k3) k4) k5) k6) k7) parity in
  each_block fuel (block64 [k0; k1; k2; k3; k4; k5; k6; k7; k8] [t0; t1; N.lxor t0 t1]) input 0 cnt.

(** ** The generator *)
Record tf_state := { t_tweak : list N; t_key : list N; t_block : list N; t_pos : N }.
(** Storing 64-bit words, low byte first. *)
Definition put64 (x : N) : list N := map (fun i => N.shiftr x (8 * i) mod 256) [0; 1; 2; 3; 4; 5; 6; 7].
Definition put64s (v : list N) : list N := concat (map put64 v).
(** rng_threefish.c:81-117 [threefish_set], STATE_BLOCKS = 1; [s] is the 64-bit
    seed. Line 114 sets T[0] = 112 after the first block has been encrypted
    with T[0] built from the bytes 112 .. 119. *)
Definition tf_tweak0 : list N := [0x7776757473727170; 0x7f7e7d7c7b7a7978].
Definition tf_key : list N :=
  [0x4746454443424140; 0x4f4e4d4c4b4a4948; 0x5756555453525150; 0x5f5e5d5c5b5a5958;
   0x6766656463626160; 0x6f6e6d6c6b6a6968; 0x7776757473727170; 0x7f7e7d7c7b7a7978].
Definition tf_set (s : N) : outcome tf_state :=
  do X <- process_blocks64 1 tf_tweak0 tf_key (put64 s ++ repeat 0 56) 1 ;;
  Ok {| t_tweak := [112; nth 1 tf_tweak0 0]; t_key := tf_key; t_block := put64s X; t_pos := 0 |}.
(** rng_threefish.c:59-73 [threefish_get]. *)
Definition tf_get (st : tf_state) : outcome (N * tf_state) :=
  do st <- (if 64 <? t_pos st + 4 then
              do X <- process_blocks64 1 (t_tweak st) (t_key st) (t_block st) 1 ;;
              Ok {| t_tweak := t_tweak st; t_key := t_key st; t_block := put64s X; t_pos := 0 |}
            else Ok st) ;;
  let p := Z.of_N (t_pos st) in
  do x0 <- aget (t_block st) p ;; do x1 <- aget (t_block st) (p + 1) ;;
  do x2 <- aget (t_block st) (p + 2) ;; do x3 <- aget (t_block st) (p + 3) ;;
  Ok (x0 + 2 ^ 8 * x1 + 2 ^ 16 * x2 + 2 ^ 24 * x3,
      {| t_tweak := t_tweak st; t_key := t_key st; t_block := t_block st; t_pos := t_pos st + 4 |}).
(** n calls of [tf_get] in sequence. *)
Fixpoint tf_outputs (n : nat) (st : tf_state) : outcome (list N * tf_state) :=
  match n with
  | O => Ok ([], st)
  | S n => do (x, st) <- tf_get st ;; do (l, st) <- tf_outputs n st ;; Ok (x :: l, st)
  end.
