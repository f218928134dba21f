(** Model of libdieharder/diehard_squeeze.c.  [u i] is the i-th uniform deviate
    drawn in the run; printing is left out. *)
From Verif Require Export Base DoubleModel Tally.
From Flocq Require Import IEEE754.BinarySingleNaN.
Open Scope Z_scope.

(** ceil, then the conversion to int: undefined unless the result is an int. *)
Definition ceil_int (x : double) : outcome Z :=
  match x with
  | B754_zero _ => Ok 0
  | B754_finite s m e _ =>
    let v := if s then Z.neg m else Z.pos m in
    let r := if 0 <=? e then v * 2 ^ e else - (- v / 2 ^ (- e)) in
    if (- 2 ^ 31 <=? r) && (r <? 2 ^ 31) then Ok r else UB "conversion to int"
  | _ => UB "conversion to int"
  end.

(** diehard_squeeze.c:42-52 [sdata], in units of 10^-8. *)
Definition sdata8 : list Z :=
  [2103; 5779; 17554; 46732; 110783; 236784; 460944; 824116; 1362781; 2096849;
   3017612; 4080197; 5204203; 6283828; 7205637; 7869451; 8206755; 8191935; 7844008; 7219412;
   6398679; 5470931; 4519852; 3613661; 2800028; 2105567; 1538652; 1094020; 757796; 511956;
   337726; 217787; 137439; 84970; 51518; 30666; 17939; 10324; 5851; 3269;
   1803; 982; 1121].
(** diehard_squeeze.c:82-84: the expected counts. *)
Definition squeeze_expected (tsamples : N) : list double :=
  map (fun s => dmul (d_of_Z (Z.of_N tsamples)) (d_lit s 100000000)) sdata8.

Section Squeeze.
Variable u : nat -> double.

(** diehard_squeeze.c:105-109: one sample from k on; [n] is 48 - j.  Result: j
    and the number of deviates drawn so far. *)
Fixpoint squeeze_loop (n : nat) (k j : Z) (c : nat) : outcome (Z * nat) :=
  match n with
  | O => Ok (j, c)
  | S n =>
    if k =? 1 then Ok (j, c) else
    do k <- ceil_int (dmul (d_of_Z k) (u c)) ;;
    squeeze_loop n k (j + 1) (S c)
  end.

(** diehard_squeeze.c:100-117: the samples.  The index of the sample is an int
    compared with an unsigned count. *)
Fixpoint squeeze_samples (n : nat) (x : list N) (c : nat) : outcome (list N * nat) :=
  match n with
  | O => Ok (x, c)
  | S n =>
    do (j, c) <- squeeze_loop 48 2147483647 0 c ;;
    let j := if j <? 6 then 6 else j in
    do x <- bump x (j - 6) ;;
    squeeze_samples n x c
  end.
(** diehard_squeeze.c:55-135 [diehard_squeeze], without the evaluation of the table. *)
Definition diehard_squeeze (tsamples : N) : outcome (list N * nat) :=
  if (2 ^ 31 <=? tsamples)%N then UB "int overflow" else squeeze_samples (N.to_nat tsamples) (repeat 0%N 43) 0.
End Squeeze.
