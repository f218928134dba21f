(** Models of dab_filltree, dab_filltree2 and of the sample rotation of dab_dct
    (libdieharder/). *)
From Verif Require Export Tally.
Open Scope N_scope.

(** dab_filltree.c:25 and dab_dct.c:39: the macro RotL(x,N); [w] is rmax_bits
    and rmax_mask is 2^w-1.  Both shift counts are unsigned ints (an int
    rotAmount is converted). *)
Definition rotl (w x n : N) : outcome N :=
  do a <- shl32 x n ;;
  do b <- shr32 x (sub32 w n) ;;
  Ok (N.land (2 ^ w - 1) (N.lor a b)).

(** dab_filltree.c:108-124 [insert]: [None] is the result -1.  The tree holds
    the rotated numbers themselves; the program divides all of them by
    rmax_mask, which keeps their order and keeps 0 (32-bit numerators, 53-bit
    quotients).  d is halved every round, so 33 rounds suffice. *)
Fixpoint insert_loop (fuel : nat) (x : N) (arr : list N) (i d : N) : outcome (option N * list N) :=
  match fuel with
  | O => OutOfFuel
  | S f =>
    if d =? 0 then Ok (Some i, arr)
    else
      do a <- aget arr (Z.of_N i) ;;
      if a =? 0 then do arr <- aset arr (Z.of_N i) x ;; Ok (None, arr)
      else if a <? x then insert_loop f x arr (add32 i d) (d / 2)
      else insert_loop f x arr (sub32 i d) (d / 2)
  end.
Definition insert (x : N) (arr : list N) (startVal : N) : outcome (option N * list N) :=
  insert_loop 33 x arr startVal ((startVal + 1) / 2).

Section Generator.
Variable g : nat -> N.

(** dab_filltree.c:73-86: filling one tree.  [None] is the early return from
    the whole test; [Some (ret, i)] the position that failed and the number of
    words drawn.  The check on i bounds the number of rounds. *)
Fixpoint tree (fuel : nat) (size startVal w rot : N) (arr : list N) (i : N) (c : nat)
    : outcome (option (N * N) * nat) :=
  match fuel with
  | O => OutOfFuel
  | S f =>
    do x <- rotl w (g c) rot ;;
    let i := i + 1 in
    if size * 2 <? i then Ok (None, S c)
    else
      do (ret, arr) <- insert x arr startVal ;;
      match ret with
      | None => tree f size startVal w rot arr i (S c)
      | Some r => Ok (Some (r, i), S c)
      end
  end.

(** dab_filltree.c:72-91: the loop over the trees; [None] is the early return. *)
Fixpoint trees (rounds : nat) (j size w tsamples rot : N) (counts pos : list N) (c : nat)
    : outcome (option (list N * list N) * nat) :=
  match rounds with
  | O => Ok (Some (counts, pos), c)
  | S r =>
    let startVal := size / 2 - 1 in
    do (e, c) <- tree (N.to_nat (size * 2) + 2) size startVal w rot (repeat 0 (N.to_nat size)) 0 c ;;
    match e with
    | None => Ok (None, c)
    | Some (ret, i) =>
      do pos <- bump pos (Z.of_N (ret / 2)) ;;
      do counts <- bump counts (Z.of_N i - 1)%Z ;;
      let q := tsamples / 4 in
      if q =? 0 then UB "division by zero"
      else trees r (j + 1) size w tsamples (if j mod q =? 0 then rot + 1 else rot) counts pos c
    end
  end.
(** dab_filltree.c:39-91 with [size] = 32 unless ntuple is given: counts (20
    cells, the length of targetData) and positionCounts. *)
Definition filltree (size w : N) (tsamples : nat) (c : nat) : outcome (option (list N * list N) * nat) :=
  trees tsamples 0 size w (N.of_nat tsamples) 0 (repeat 0 20) (repeat 0 (N.to_nat (size / 2))) c.

(** ** dab_filltree2 *)

(** dab_filltree2.c:184-198 [insertBit]: result [-2], [-1] or a position. *)
Definition insert_bit (x : N) (arr : list N) (i d : N) : outcome (Z * list N * N * N) :=
  let i := if negb (x =? 0) then add32 i d else sub32 i d in
  let d := d / 2 in
  do a <- aget arr (Z.of_N i) ;;
  if a =? 0 then do arr <- aset arr (Z.of_N i) 1 ;; Ok ((-1)%Z, arr, i, d)
  else if d =? 0 then Ok (Z.of_N i, arr, i, d)
  else Ok ((-2)%Z, arr, i, d).

(** State of the bit source: x, bitCount and the generator position. *)
Definition bits : Type := N * N * nat.
(** dab_filltree2.c:146-150. *)
Definition next_bit (w : N) (s : bits) : bits :=
  let '(x, bc, c) := s in
  let x := N.shiftr x 1 in
  let bc := sub32 bc 1 in
  if bc =? 0 then (g c, w, S c) else (x, bc, c).
(** dab_filltree2.c:144-151: the inner loop, one path through the tree. *)
Fixpoint path (fuel : nat) (w : N) (arr : list N) (index d : N) (s : bits) : outcome (Z * list N * bits) :=
  match fuel with
  | O => OutOfFuel
  | S f =>
    do (ret, arr, index, d) <- insert_bit (N.land (fst (fst s)) 1) arr index d ;;
    let s := next_bit w s in
    if (ret =? -2)%Z then path f w arr index d s else Ok (ret, arr, s)
  end.
(** dab_filltree2.c:137-154: one tree. *)
Fixpoint tree2 (fuel : nat) (size w : N) (arr : list N) (i : N) (s : bits) : outcome (option (Z * N) * bits) :=
  match fuel with
  | O => OutOfFuel
  | S f =>
    let startVal := size / 2 - 1 in
    if size * 2 <? i then Ok (None, s)
    else
      do (ret, arr, s) <- path 33 w arr startVal ((startVal + 1) / 2) s ;;
      let i := i + 1 in
      if (ret =? -1)%Z then tree2 f size w arr i s else Ok (Some (ret, i), s)
  end.
(** dab_filltree2.c:133-158: the loop over the trees. *)
Fixpoint trees2 (rounds : nat) (size w : N) (counts pos : list N) (s : bits)
    : outcome (option (list N * list N) * bits) :=
  match rounds with
  | O => Ok (Some (counts, pos), s)
  | S r =>
    do (e, s) <- tree2 (N.to_nat (size * 2) + 2) size w (repeat 0 (N.to_nat size)) 0 s ;;
    match e with
    | None => Ok (None, s)
    | Some (ret, i) =>
      do pos <- bump pos (Z.quot ret 2) ;;
      do counts <- bump counts (Z.of_N i - 1)%Z ;;
      trees2 r size w counts pos s
    end
  end.
(** dab_filltree2.c:97-158 with [size] = 128 unless ntuple is given; counts has
    128 cells. *)
Definition filltree2 (size w : N) (tsamples c : nat) : outcome (option (list N * list N) * bits) :=
  trees2 tsamples size w (repeat 0 128) (repeat 0 (N.to_nat (size / 2))) (g c, w, S c).

(** ** dab_dct *)

(** dab_dct.c:140-143: reading and rotating one vector. *)
Fixpoint dct_vector (n : nat) (w rot : N) (c : nat) : outcome (list N * nat) :=
  match n with
  | O => Ok ([], c)
  | S m =>
    do x <- rotl w (g c) rot ;;
    do (r, c) <- dct_vector m w rot (S c) ;;
    Ok (x :: r, c)
  end.
(** dab_dct.c:127-143: the vectors handed to the transform, in order. *)
Fixpoint dct_vectors (rounds : nat) (j : N) (len : nat) (w tsamples rot : N) (c : nat)
    : outcome (list (list N) * nat) :=
  match rounds with
  | O => Ok ([], c)
  | S r =>
    do rot <- (if j =? 0 then Ok rot
               else if tsamples / 4 =? 0 then UB "division by zero"
               else Ok (if j mod (tsamples / 4) =? 0 then rot + w / 4 else rot)) ;;
    do (v, c) <- dct_vector len w rot c ;;
    do (vs, c) <- dct_vectors r (j + 1) len w tsamples rot c ;;
    Ok (v :: vs, c)
  end.
Definition dct_inputs (len : nat) (w : N) (tsamples c : nat) : outcome (list (list N) * nat) :=
  dct_vectors tsamples 0 len w (N.of_nat tsamples) 0 c.
End Generator.
