(** Model of the minimum-distance tests diehard_2dsphere.c, diehard_3dsphere.c
    and rgb_minimum_distance.c.  The sequence of numbers gsl_rng_uniform_pos
    returns is the stream [u]; gsl_heapsort and the functions of the C
    mathematical library are parameters. *)
From Verif Require Export Base DoubleModel.
From Flocq Require Import IEEE754.BinarySingleNaN.

(** sqrt: correctly rounded, as IEEE 754 requires. *)
Definition dsqrt (x : double) : double := Bsqrt mode_NE x.
Definition dopp (x : double) : double := Bopp x.

(** libdieharder.h:310-313 [dTuple]: an array of RGB_MINIMUM_DISTANCE_MAXDIM = 5
    doubles; [None] is a cell not yet written. *)
Definition dpoint := list (option double).
Definition read (p : dpoint) (i : Z) : outcome double :=
  do x <- aget p i ;; match x with Some v => Ok v | None => UB "uninitialised" end.

(** rgb_minimum_distance.c:46-52 [compare_points]. *)
Definition compare_points (a b : dpoint) : outcome Z :=
  do x <- read a 0 ;; do y <- read b 0 ;;
  let diff := dsub x y in
  Ok (if dgt diff dzero then 1 else if dlt diff dzero then -1 else 0)%Z.

(** rgb_minimum_distance.c:54-64 [distance]: the loop, then the root. *)
Fixpoint distance_loop (n : nat) (i : Z) (a b : dpoint) (distance : double) : outcome double :=
  match n with
  | O => Ok (dsqrt distance)
  | S n =>
    do x <- read a i ;; do y <- read b i ;;
    let delta := dsub x y in
    distance_loop n (i + 1) a b (dadd distance (dmul delta delta))
  end.
Definition distance (a b : dpoint) (dim : nat) : outcome double := distance_loop dim 0 a b dzero.

(** rgb_minimum_distance.c:124-135: the coordinates of one point, from the
    stream at position [c]; [f] is what is done with each number. *)
Fixpoint new_point (n : nat) (d : Z) (f : double -> double) (u : nat -> double) (c : nat) (p : dpoint) : outcome dpoint :=
  match n with
  | O => Ok p
  | S n => do p <- aset p d (Some (f (u c))) ;; new_point n (d + 1) f u (S c) p
  end.
(** rgb_minimum_distance.c:115-136: [n] points. *)
Fixpoint new_points (n dim : nat) (f : double -> double) (u : nat -> double) (c : nat) : outcome (list dpoint) :=
  match n with
  | O => Ok []
  | S n =>
    do p <- new_point dim 0 f u c (repeat None 5) ;;
    do l <- new_points n dim f u (c + dim) ;; Ok (p :: l)
  end.

(** rgb_minimum_distance.c:174-181: the loop over j for one i; [rest] is the
    list of the points after point i. *)
Fixpoint sweep_from (dim : nat) (p : dpoint) (rest : list dpoint) (mindist : double) : outcome double :=
  match rest with
  | [] => Ok mindist
  | q :: rest =>
    do xq <- read q 0 ;; do xp <- read p 0 ;;
    if dgt (dsub xq xp) mindist then Ok mindist
    else do dist <- distance q p dim ;;
         sweep_from dim p rest (if dlt dist mindist then dist else mindist)
  end.
(** rgb_minimum_distance.c:164-182, the loop over i. Simplified: tsamples is
    taken to be below 2^31, so that the int counters do not overflow. *)
Fixpoint sweep (dim : nat) (l : list dpoint) (mindist : double) : outcome double :=
  match l with
  | [] => Ok mindist
  | p :: rest => do m <- sweep_from dim p rest mindist ;; sweep dim rest m
  end.

Definition d1000 : double := d_of_Z 1000.
Definition d2000 : double := d_of_Z 2000.
Definition d10000 : double := d_of_Z 10000.

Section Tests.
(** gsl_heapsort on the array of points with compare_points. *)
Variable heapsort : list dpoint -> list dpoint.
(** exp *)
Variable dexp : double -> double.
(** rgb_minimum_distance.c:196-207: the p-value as a function of the dimension,
    tsamples and mindist (pow, exp and the factorials of GSL). *)
Variable fischler : nat -> nat -> double -> double.

(** diehard_2dsphere.c:54-180: mindist and the p-value. *)
Definition diehard_2dsphere (tsamples : nat) (u : nat -> double) : outcome (double * double) :=
  do points <- new_points tsamples 2 (fun x => dmul x d10000) u 0 ;;
  do mindist <- sweep 2 (heapsort points) d10000 ;;
  Ok (mindist, dsub DoubleModel.done (dexp (ddiv (dmul (dopp mindist) mindist) (d_lit 995 1000)))).

(** rgb_minimum_distance.c:66-219: mindist and the p-value; line 202 reads
    rgb_md_Q[rgb_md_dim], an array of six. *)
Definition rgb_minimum_distance (ntuple tsamples : nat) (u : nat -> double) : outcome (double * double) :=
  do points <- new_points tsamples ntuple (fun x => x) u 0 ;;
  do mindist <- sweep ntuple (heapsort points) DoubleModel.done ;;
  do _ <- aget (repeat tt 6) (Z.of_nat ntuple) ;;
  Ok (mindist, fischler ntuple tsamples mindist).

(** diehard_3dsphere.c:27-29: three doubles. *)
Definition point3 := (double * double * double)%type.
(** diehard_3dsphere.c:71-75: r2 and r1. *)
Definition r2_of (p q : point3) : double :=
  let '(x, y, z) := p in let '(x', y', z') := q in
  let xdelta := dsub x x' in let ydelta := dsub y y' in let zdelta := dsub z z' in
  dadd (dadd (dmul xdelta xdelta) (dmul ydelta ydelta)) (dmul zdelta zdelta).
Definition r1_of (p q : point3) : double := dsqrt (r2_of p q).
(** diehard_3dsphere.c:70-86: the loop over k = j-1 .. 0; [older] holds the
    earlier points, the last one first. *)
Fixpoint nearest (p : point3) (older : list point3) (rmin r3min : double) : double * double :=
  match older with
  | [] => (rmin, r3min)
  | q :: older =>
    let r2 := r2_of p q in let r1 := r1_of p q in let r3 := dmul r2 r1 in
    if dlt r1 rmin then nearest p older r1 r3 else nearest p older rmin r3min
  end.
(** diehard_3dsphere.c:58-88: the loop over j, [n] more points to come. *)
Fixpoint points_3d (n : nat) (u : nat -> double) (c : nat) (older : list point3) (rmin r3min : double) : double * double :=
  match n with
  | O => (rmin, r3min)
  | S n =>
    let p := (dmul d1000 (u c), dmul d1000 (u (c + 1)%nat), dmul d1000 (u (c + 2)%nat)) in
    let '(rmin, r3min) := nearest p older rmin r3min in
    points_3d n u (c + 3) (p :: older) rmin r3min
  end.
(** diehard_3dsphere.c:32-102: POINTS_3D = 4000; rmin, r3min and the p-value. *)
Definition diehard_3dsphere (u : nat -> double) : double * double * double :=
  let '(rmin, r3min) := points_3d (N.to_nat 4000) u 0 [] d2000 dzero in
  (rmin, r3min, dsub DoubleModel.done (dexp (ddiv (dopp r3min) (d_of_Z 30)))).
End Tests.
