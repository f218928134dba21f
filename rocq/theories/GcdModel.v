(** Model of marsaglia_tsang_gcd (libdieharder/marsaglia_tsang_gcd.c): the
    sampling loop and its two tables.  The numbers get_rand_bits_uint(32,...)
    returns are a stream [g : nat -> N] (see StreamModel for that routine). *)
From Verif Require Export Tally.
Open Scope N_scope.

(** marsaglia_tsang_gcd.c:218-223: Euclid's algorithm; a division by zero is
    undefined.  Result: u and k at the end. *)
Fixpoint euclid (fuel : nat) (u v k : N) : outcome (N * N) :=
  match fuel with
  | O => OutOfFuel
  | S f =>
    if v =? 0 then UB "division by zero" else
    let w := u mod v in
    let u := v in
    let v := w in
    let k := k + 1 in
    if 0 <? v then euclid f u v k else Ok (u, k)
  end.

Section Generator.
Variable g : nat -> N.

(** marsaglia_tsang_gcd.c:211-216: draw until the number is not zero. *)
Fixpoint nonzero (fuel c : nat) : outcome (N * nat) :=
  match fuel with
  | O => OutOfFuel
  | S f => if g c =? 0 then nonzero f (S c) else Ok (g c, S c)
  end.

(** marsaglia_tsang_gcd.c:207-241, one sample: the tables [gcd] and [ktbl]
    (KTBLSIZE = 41). *)
Definition gcd_sample (fuel : nat) (gtblsize : N) (s : list N * list N * nat)
    : outcome (list N * list N * nat) :=
  let '(gcd, ktbl, c) := s in
  do (u, c) <- nonzero fuel c ;;
  do (v, c) <- nonzero fuel c ;;
  do (u, k) <- euclid 65 u v 0 ;;
  let u := if gtblsize <=? u then sub32 gtblsize 1 else u in
  do gcd <- (if u <? gtblsize then bump gcd (Z.of_N u) else Ok gcd) ;;
  let k := if 40 <? k then 40 else k in
  do ktbl <- bump ktbl (Z.of_N k) ;;
  Ok (gcd, ktbl, c).

(** marsaglia_tsang_gcd.c:187-192: the static table.  [size] stands for
    [(uint) sqrt(tsamples*gnorm/100.0)].  The table is allocated the first time
    and cleared every time over gtblsize entries. *)
Definition gcd_table (size : N -> N) (tsamples : N) (st : option (list N) * N) : outcome (list N * N) :=
  let '(mem, gtblsize) := st in
  let gtblsize := if gtblsize =? 0 then size tsamples else gtblsize in
  let gcd := match mem with None => repeat 0 (N.to_nat gtblsize) | Some l => l end in
  if N.of_nat (length gcd) <? gtblsize then UB "memset beyond the allocation"
  else Ok (repeat 0 (N.to_nat gtblsize) ++ skipn (N.to_nat gtblsize) gcd, gtblsize).

(** marsaglia_tsang_gcd.c:145-243: one call, up to the tables handed to the
    chi-square tests. *)
Definition gcd_call (fuel : nat) (size : N -> N) (tsamples : nat) (st : option (list N) * N) (c : nat)
    : outcome (list N * list N * nat * N) :=
  do (gcd, gtblsize) <- gcd_table size (N.of_nat tsamples) st ;;
  do (gcd, ktbl, c) <- iter_o tsamples (gcd_sample fuel gtblsize) (gcd, repeat 0 41, c) ;;
  Ok (gcd, ktbl, c, gtblsize).
End Generator.
