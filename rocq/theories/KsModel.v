(** Model of libdieharder/kstest.c: the Kolmogorov-Smirnov and Kuiper tests of
    a list of p-values.

    The arithmetic is a parameter, so that one text can be read with C doubles
    (what the program computes) and with real numbers (what it is meant to
    compute). *)
From Verif Require Export Base DoubleModel SphereModel.
From Flocq Require Import IEEE754.BinarySingleNaN.
Open Scope Z_scope.

Record arith := Arith {
  num : Type;
  nadd : num -> num -> num;
  nsub : num -> num -> num;
  nmul : num -> num -> num;
  ndiv : num -> num -> num;
  nneg : num -> num;
  nabs : num -> num;
  nsqrt : num -> num;
  ngt : num -> num -> bool;
  nint : Z -> num;            (* conversion of an integer *)
  nlit : Z -> Z -> num;       (* the literal that stands for n/d *)
  e140 : num;                 (* 1.0e140 *)
  em140 : num;                (* 1.0e-140 *)
  ntrunc : num -> option Z;   (* integer part, for the cast to int *)
  npow : num -> Z -> num;     (* pow *)
  nexp : num -> num           (* exp *)
}.

(** C doubles; pow and exp are library functions. *)
Definition doubles (dpow : double -> Z -> double) (dexp : double -> double) : arith := {|
  num := double; nadd := dadd; nsub := dsub; nmul := dmul; ndiv := ddiv; nneg := dopp; nabs := dabs; nsqrt := dsqrt;
  ngt := dgt; nint := d_of_Z; nlit := d_lit;
  e140 := @B754_finite 53 1024 false 4727285052306297 413 eq_refl;
  em140 := @B754_finite 53 1024 false 8580997075163262 (-518) eq_refl;
  ntrunc := dtrunc; npow := dpow; nexp := dexp |}.

(** for(i = a; i < a+n; i++) *)
Fixpoint for_ {S} (n : nat) (i : Z) (f : Z -> S -> outcome S) (s : S) : outcome S :=
  match n with O => Ok s | Datatypes.S n => do s <- f i s ;; for_ n (i + 1) f s end.

Section Ks.
Variable A : arith.
Notation T := (num A).
Declare Scope num_scope.
Local Notation "x + y" := (nadd A x y) : num_scope.
Local Notation "x - y" := (nsub A x y) : num_scope.
Local Notation "x * y" := (nmul A x y) : num_scope.
Local Notation "x / y" := (ndiv A x y) : num_scope.
Delimit Scope num_scope with num.
Notation int := (nint A).

(** kstest.c:183-196 [mMultiply]: C is written in the innermost loop. *)
Definition mMultiply (X Y C : list T) (m : nat) : outcome (list T) :=
  let mz := Z.of_nat m in
  for_ m 0 (fun i C =>
    for_ m 0 (fun j C =>
      do sC <- for_ m 0 (fun k sC =>
                 do x <- aget X (i * mz + k) ;; do y <- aget Y (k * mz + j) ;;
                 let s := (fst sC + x * y)%num in
                 do C <- aset (snd sC) (i * mz + j) s ;; Ok (s, C)) (int 0, C) ;;
      Ok (snd sC)) C) C.

(** kstest.c:239-247: rescaling, each entry being examined. *)
Definition rescale (V : list T) (eV : Z) (m : nat) : outcome (list T * Z) :=
  let mm := (m * m)%nat in
  for_ mm 0 (fun i s =>
    do v <- aget (fst s) i ;;
    if ngt A v (e140 A) then
      do V <- for_ mm 0 (fun j V => do v <- aget V j ;; aset V j (v * em140 A)%num) (fst s) ;;
      Ok (V, snd s + 140)
    else Ok s) (V, eV).

(** kstest.c:198-251 [mPower]; V is a buffer of m*m numbers.  Simplified: the
    exponent eV does not overflow (it grows by 140 when an entry exceeds 1e140). *)
Fixpoint mPower (fuel : nat) (X : list T) (eX : Z) (V : list T) (m : nat) (n : Z) : outcome (list T * Z) :=
  match fuel with
  | O => OutOfFuel
  | S fuel =>
    let mm := (m * m)%nat in
    if n =? 1 then
      do V <- for_ mm 0 (fun i V => do x <- aget X i ;; aset V i x) V ;; Ok (V, eX)
    else
      do r <- mPower fuel X eX V m (n / 2) ;;
      let '(V, eV) := r in
      do B <- mMultiply V V (repeat (int 0) mm) m ;;
      let eB := 2 * eV in
      do r <- (if n mod 2 =? 0 then
                 do V <- for_ mm 0 (fun i V => do b <- aget B i ;; aset V i b) V ;; Ok (V, eB)
               else
                 do V <- mMultiply X B V m ;; Ok (V, eX + eB)) ;;
      rescale (fst r) (snd r) m
  end.

(** kstest.c:286-312: the matrix H. *)
Definition fill_H (m : nat) (h : T) : outcome (list T) :=
  let mz := Z.of_nat m in
  do H <- for_ m 0 (fun i H => for_ m 0 (fun j H => aset H (i * mz + j) (if i - j + 1 <? 0 then int 0 else int 1)) H)
               (repeat (int 0) (m * m)) ;;
  do H <- for_ m 0 (fun i H =>
            do x <- aget H (i * mz) ;; do H <- aset H (i * mz) (x - npow A h (i + 1))%num ;;
            do x <- aget H ((mz - 1) * mz + i) ;; aset H ((mz - 1) * mz + i) (x - npow A h (mz - i))%num) H ;;
  do x <- aget H ((mz - 1) * mz) ;;
  let g := (int 2 * h - int 1)%num in
  do H <- aset H ((mz - 1) * mz) (x + (if ngt A g (int 0) then npow A g mz else int 0))%num ;;
  for_ m 0 (fun i H => for_ m 0 (fun j H =>
    if i - j + 1 >? 0 then
      for_ (Z.to_nat (i - j + 1)) 1 (fun g H =>
        do x <- aget H (i * mz + j) ;; aset H (i * mz + j) (x / int g)%num) H
    else Ok H) H) H.

(** kstest.c:319-327: the factor n!/n^n. *)
Definition factorials (n : Z) (s : T) (eQ : Z) : outcome (T * Z) :=
  for_ (Z.to_nat n) 1 (fun i se =>
    let s := (fst se * int i / int n)%num in
    if ngt A (em140 A) s then
      if snd se - 140 <? - 2 ^ 31 then UB "int overflow" else Ok ((s * e140 A)%num, snd se - 140)
    else Ok (s, snd se)) (s, eQ).

(** kstest.c:258-336 [p_ks_new]. The dimension m*m is computed in int. *)
Definition p_ks_new (ks_test : N) (n : Z) (d : T) : outcome T :=
  let s := (d * d * int n)%num in
  if negb (ks_test =? 2)%N && (ngt A s (nlit A 724 100) || (ngt A s (nlit A 376 100) && (n >? 99))) then
    Ok (int 2 * nexp A (nneg A ((nlit A 2000071 1000000 + nlit A 331 1000 / nsqrt A (int n) + nlit A 1409 1000 / int n) * s)))%num
  else
    match ntrunc A (int n * d)%num with
    | None => UB "cast to int"
    | Some t =>
      if (t <? - 2 ^ 31) || (2 ^ 31 - 1 <? t + 1) then UB "cast to int" else
      let k := t + 1 in
      let m := 2 * k - 1 in
      if (m <? 1) || (2 ^ 31 <=? m * m) then UB "int overflow" else
      let h := (int k - int n * d)%num in
      let m := Z.to_nat m in
      do H <- fill_H m h ;;
      do r <- mPower 32 H 0 (repeat (int 0) (m * m)) m n ;;
      let '(Q, eQ) := r in
      do s <- aget Q ((k - 1) * Z.of_nat m + k - 1) ;;
      do r <- factorials n s eQ ;;
      let '(s, eQ) := r in
      Ok (int 1 - s * npow A (nlit A 10 1) eQ)%num
    end.

(** kstest.c:141-164 [q_ks]: 99 terms. *)
Fixpoint q_loop (n : nat) (i sign : Z) (kappa qsum : T) : T :=
  match n with
  | O => qsum
  | S n => let sign := - sign in
           q_loop n (i + 1) sign kappa (qsum + int sign * nexp A (kappa * int i * int i))%num
  end.
Definition q_ks (x : T) : T := (int 2 * q_loop 99 1 (-1) (nneg A (int 2) * x * x) (int 0))%num.

(** kstest.c:46-79: dmax over the sorted p-values, i = 1 .. count. The value d
    of lines 70 and 72 is not used. *)
Fixpoint dmax_loop (i count : Z) (pv : list T) (dmax : T) : T :=
  match pv with
  | [] => dmax
  | p :: pv =>
    let y := (int i / (int count + int 1))%num in
    let d1 := nabs A (p - y)%num in
    dmax_loop (i + 1) count pv (if ngt A d1 dmax then d1 else dmax)
  end.

(** gsl_sort *)
Variable srt : list T -> list T.

(** kstest.c:23-138 [kstest]; the sorted p-values are left in the array. *)
Definition kstest (ks_test : N) (pvalue : list T) (count : Z) : outcome (T * list T) :=
  if count <? 1 then Ok (int (-1), pvalue)
  else if count =? 1 then do p <- aget pvalue 0 ;; Ok (p, pvalue)
  else if Z.of_nat (length pvalue) <? count then UB "array index" else
  let n := Z.to_nat count in
  let sorted := srt (firstn n pvalue) in
  let pvalue := sorted ++ skipn n pvalue in
  let dmax := dmax_loop 1 count sorted (int 0) in
  if (ks_test =? 0)%N && (count >? 4999) then
    let csqrt := nsqrt A (int count) in
    let x := ((csqrt + nlit A 12 100 + nlit A 11 100 / csqrt) * dmax)%num in
    Ok (q_ks x, pvalue)
  else do p <- p_ks_new ks_test count dmax ;; Ok (p, pvalue).

(** kstest.c:386-402: vmax and vmin over the sorted p-values, i = 0 .. count-1. *)
Fixpoint v_loop (i count : Z) (pv : list T) (vmax vmin : T) : T * T :=
  match pv with
  | [] => (vmax, vmin)
  | p :: pv =>
    let v := (p - int i / int count)%num in
    if ngt A v vmax then v_loop (i + 1) count pv v vmin
    else if ngt A vmin v then v_loop (i + 1) count pv vmax v
    else v_loop (i + 1) count pv vmax vmin
  end.
End Ks.

(** kstest.c:422-466 [q_ks_kuiper], with doubles: the two loops run until the
    sum no longer changes; m is a 32-bit unsigned int. *)
Fixpoint kuiper_q (fuel : nat) (dexp : double -> double) (m : N) (xsq q q_last : double) : outcome double :=
  match fuel with
  | O => OutOfFuel
  | S fuel =>
    if deq q q_last then Ok q else
    let m := add32 m 1 in
    let msq := d_of_Z (Z.of_N (mul32 m m)) in
    kuiper_q fuel dexp m xsq
      (dadd q (dmul (dsub (dmul (dmul (d_of_Z 4) msq) xsq) DoubleModel.done) (dexp (dmul (dmul (dopp (d_of_Z 2)) msq) xsq)))) q
  end.
Fixpoint kuiper_p (fuel : nat) (dexp : double -> double) (m : N) (xsq p p_last : double) : outcome double :=
  match fuel with
  | O => OutOfFuel
  | S fuel =>
    if deq p p_last then Ok p else
    let m := add32 m 1 in
    let msq := d_of_Z (Z.of_N (mul32 m m)) in
    kuiper_p fuel dexp m xsq
      (dadd p (dmul (dmul msq (dsub (dmul (dmul (d_of_Z 4) msq) xsq) (d_of_Z 3))) (dexp (dmul (dmul (dopp (d_of_Z 2)) msq) xsq)))) p
  end.
Definition q_ks_kuiper (fuel : nat) (dexp : double -> double) (x : double) (count : Z) : outcome double :=
  let xsq := dmul x x in
  do q <- kuiper_q fuel dexp 0 xsq dzero dminus1 ;;
  let q := dmul (d_of_Z 2) q in
  do p <- kuiper_p fuel dexp 0 xsq dzero dminus1 ;;
  let p := ddiv (dmul (dmul (d_of_Z 8) x) p) (dmul (d_of_Z 3) (dsqrt (d_of_Z count))) in
  Ok (dsub q p).
(** kstest.c:350-420 [kstest_kuiper]. *)
Definition kstest_kuiper (fuel : nat) (dexp : double -> double) (srt : list double -> list double)
    (pvalue : list double) (count : Z) : outcome (double * list double) :=
  if count =? 1 then do p <- aget pvalue 0 ;; Ok (p, pvalue)
  else if (count <? 0) || (Z.of_nat (length pvalue) <? count) then UB "array index" else
  let n := Z.to_nat count in
  let sorted := srt (firstn n pvalue) in
  let D := doubles (fun x _ => x) dexp in
  let '(vmax, vmin) := v_loop D 0 count sorted dzero dzero in
  let v := dadd (dabs vmax) (dabs vmin) in
  let csqrt := dsqrt (d_of_Z count) in
  let x := dmul (dadd (dadd csqrt (d_lit 155 1000)) (ddiv (d_lit 24 100) csqrt)) v in
  do p <- q_ks_kuiper fuel dexp x count ;; Ok (p, sorted ++ skipn n pvalue).
