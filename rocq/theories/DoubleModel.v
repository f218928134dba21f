(** * C doubles

    The C type [double] as the IEEE-754 binary64 format of Flocq
    (single NaN), with the rounding mode every C program starts in
    (to nearest, ties to even).  Comparisons are the C ones: every
    comparison with a NaN is false. *)

From Coq Require Import ZArith Bool.
From Flocq Require Import IEEE754.BinarySingleNaN.

Definition double := binary_float 53 1024.

Definition prec_ok : FLX.Prec_gt_0 53 := eq_refl.
Definition emax_ok : Prec_lt_emax 53 1024 := eq_refl.

#[global] Existing Instance prec_ok.
#[global] Existing Instance emax_ok.

Definition dadd (x y : double) : double := Bplus mode_NE x y.
Definition dsub (x y : double) : double := Bminus mode_NE x y.
Definition dmul (x y : double) : double := Bmult mode_NE x y.
Definition ddiv (x y : double) : double := Bdiv mode_NE x y.
Definition dabs (x : double) : double := Babs x.

(** [x < y], [x <= y], [x > y], [x >= y], [x == y] *)
Definition dlt (x y : double) : bool := Bltb x y.
Definition dle (x y : double) : bool := Bleb x y.
Definition dgt (x y : double) : bool := Bltb y x.
Definition dge (x y : double) : bool := Bleb y x.
Definition deq (x y : double) : bool := Beqb x y.
Definition disnan (x : double) : bool := is_nan x.

(** conversion of an integer *)
Definition d_of_Z (z : Z) : double :=
  binary_normalize 53 1024 prec_ok emax_ok mode_NE z 0 false.

Definition dzero : double := B754_zero false.
Definition dnan : double := B754_nan.
Definition dhalf : double := @B754_finite 53 1024 false 4503599627370496 (-53) eq_refl.
Definition done : double := @B754_finite 53 1024 false 4503599627370496 (-52) eq_refl.
Definition dminus1 : double := @B754_finite 53 1024 true 4503599627370496 (-52) eq_refl.

(** A decimal literal [n/d] (both exactly representable): division is
    correctly rounded, so this is the double the compiler produces. *)
Definition d_lit (n d : Z) : double := ddiv (d_of_Z n) (d_of_Z d).

(** The integer part, as a C cast computes it; [None] for NaN and infinities. *)
Definition dtrunc (x : double) : option Z :=
  match x with
  | B754_zero _ => Some 0%Z
  | B754_finite s m e _ =>
    let a := if (0 <=? e)%Z then (Z.pos m * 2 ^ e)%Z else (Z.pos m / 2 ^ (- e))%Z in
    Some (if s then (- a)%Z else a)
  | _ => None
  end.
