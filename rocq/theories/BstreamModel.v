(** Model of the statistic of diehard_bitstream (libdieharder/diehard_bitstream.c). *)
From Verif Require Export XtestModel.
Open Scope Z_scope.

Section Bitstream.
Variable A : arith.
Variable gaussian_P : num A -> num A -> num A.

(** diehard_bitstream.c:80, 82: the local variable overlap (line 51) is always 1,
    so the branch with the deviation 290 is never taken. *)
Definition bitstream_y : num A := nint A 141909.
Definition bitstream_sigma : num A := nint A 428.
(** diehard_bitstream.c:43-279, without the output *)
Definition diehard_bitstream (g : nat -> N) (tsamples c : nat) : outcome (num A) :=
  do r <- bitstream_missing g tsamples c ;; Ok (Xtest_eval A gaussian_P (xtest A bitstream_y bitstream_sigma (fst r))).
End Bitstream.
