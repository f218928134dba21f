(** Model of diehard_operm5 (libdieharder/diehard_operm5.c): the number of the
    ordering of five values, and the counting loop. *)
From Verif Require Export Tally.
Open Scope Z_scope.

(** Conversion of an unsigned int to int: modulo 2^32 (the implementation
    defined result every supported compiler gives). *)
Definition s32 (x : N) : Z :=
  let z := Z.of_N x in if z <? 2 ^ 31 then z else z - 2 ^ 32.

(** diehard_operm5.c:85-88: the copy [w[i] = v[(i+voffset)%5]]. *)
Fixpoint kp_copy (n : nat) (i : N) (v : list N) (voffset : N) : outcome (list Z) :=
  match n with
  | O => Ok []
  | S m =>
    do x <- aget v (Z.of_N (add32 i voffset mod 5)) ;;
    do w <- kp_copy m (i + 1) v voffset ;;
    Ok (s32 x :: w)
  end.

(** diehard_operm5.c:98-105: position of the (last) maximum of w[0..i]; [n]
    rounds from j. *)
Fixpoint kp_scan (n : nat) (w : list Z) (j max k : Z) : outcome Z :=
  match n with
  | O => Ok k
  | S m =>
    do x <- aget w j ;;
    if max <=? x then kp_scan m w (j + 1) x j else kp_scan m w (j + 1) max k
  end.

(** diehard_operm5.c:97-113 *)
Fixpoint kp_loop (i : nat) (w : list Z) (pindex : Z) : outcome Z :=
  match i with
  | O => Ok pindex
  | S i' =>
    do w0 <- aget w 0 ;;
    do k <- kp_scan i w 1 w0 0 ;;
    let pindex := (Z.of_nat i + 1) * pindex + k in
    do tmp <- aget w (Z.of_nat i) ;;
    do wk <- aget w k ;;
    do w <- aset w (Z.of_nat i) wk ;;
    do w <- aset w k tmp ;;
    kp_loop i' w pindex
  end.

(** diehard_operm5.c:73-122; the verbose printing is left out. *)
Definition kperm (v : list N) (voffset : N) : outcome Z :=
  do w <- kp_copy 5 0 v voffset ;;
  kp_loop 4 w 0.

(** The generator is the stream of its results, as in the other models; the
    state is the number of results drawn. *)
Section Generator.
Variable g : nat -> N.

(** [for(i=0;i<5;i++) v[i] = gsl_rng_get(rng);] *)
Fixpoint draw (n c : nat) : list N :=
  match n with O => [] | S m => g c :: draw m (S c) end.

(** diehard_operm5.c:155-176, one round of the loop over t.  [count] holds
    doubles counting up to tsamples < 2^32; modelled as exact counters. *)
Record ostate := { o_count : list N; o_v : list N; o_vind : N; o_c : nat }.

Definition operm_step (overlap : bool) (s : ostate) : outcome ostate :=
  if overlap then
    do kp <- kperm (o_v s) (o_vind s) ;;
    do count <- bump (o_count s) kp ;;
    do v <- aset (o_v s) (Z.of_N (o_vind s)) (g (o_c s)) ;;
    Ok {| o_count := count; o_v := v; o_vind := ((o_vind s + 1) mod 5)%N; o_c := S (o_c s) |}
  else
    let v := draw 5 (o_c s) in
    do kp <- kperm v 0 ;;
    do count <- bump (o_count s) kp ;;
    Ok {| o_count := count; o_v := v; o_vind := o_vind s; o_c := (o_c s + 5)%nat |}.

(** diehard_operm5.c:124-176: the counts after tsamples rounds. *)
Definition operm_counts (overlap : bool) (tsamples : nat) (c : nat) : outcome (list N * nat) :=
  do s <- iter_o tsamples (operm_step overlap)
            {| o_count := repeat 0%N 120; o_v := draw 5 c; o_vind := 0; o_c := (c + 5)%nat |} ;;
  Ok (o_count s, o_c s).
End Generator.
