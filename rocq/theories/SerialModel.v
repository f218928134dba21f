(** Models of sts_runs and sts_serial (libdieharder/). *)
From Verif Require Export Tally BitsModel.
Open Scope N_scope.

(** ** sts_runs *)

(** sts_runs.c:64-86: the loop over the bits.  State: ptest.x, pones, c01 and
    c10, doubles that count exactly.  [b] is an int: incrementing 2^31-1
    overflows.  [rounds] is what is left of [bits]. *)
Fixpoint sts_runs_loop (rounds : nat) (w : N) (words : list N) (b x pones c01 c10 : N)
    : outcome (N * N * N * N) :=
  match rounds with
  | O => Ok (x, pones, c01, c10)
  | S r =>
    do value <- get_bit_ntuple w words (N.of_nat (length words)) 2 b ;;
    if b =? 2 ^ 31 - 1 then UB "signed overflow"
    else
      let b := b + 1 in
      match value with
      | 0 => sts_runs_loop r w words b x pones c01 c10
      | 1 => sts_runs_loop r w words b (x + 1) pones (c01 + 1) c10
      | 2 => sts_runs_loop r w words b (x + 1) (pones + 1) c01 (c10 + 1)
      | 3 => sts_runs_loop r w words b x (pones + 1) c01 c10
      | _ => sts_runs_loop r w words b x pones c01 c10
      end
  end.
(** sts_runs.c:40-86 on the words drawn: (ptest.x, pones, c01, c10); [w] is
    rmax_bits.  The global [bits] is a uint. *)
Definition sts_runs (w : N) (words : list N) : outcome (N * N * N * N) :=
  let bits := mul32 w (N.of_nat (length words)) in
  sts_runs_loop (N.to_nat bits) w words 0 0 0 0 0.

(** ** sts_serial *)

(** sts_serial.c:229-261: one round of the loop over t, for tuple size [m].
    State: t, j, window, freq[m].  [buf] is uintbuf with its extra word. *)
Definition serial_step (m : N) (buf : list N) (s : N * N * N * list N)
    : outcome (N * N * N * list N) :=
  let '(t, j, window, freq) := s in
  do (j, window) <- (if t mod 32 =? 0 then
      do x <- aget buf (Z.of_N j) ;; Ok (j + 1, x)
    else Ok (j, window)) ;;
  let bi := t mod 16 in
  let mask := 2 ^ m - 1 in
  do v <- shr32 window (sub32 (sub32 32 m) bi) ;;
  let value := N.land v mask in
  do freq <- bump freq (Z.of_N value) ;;
  if bi =? 15 then
    do x <- aget buf (Z.of_N j) ;;
    Ok (t + 1, j, add32 (w32 (N.shiftl window 16)) (N.shiftr x 16), freq)
  else Ok (t + 1, j, window, freq).
(** sts_serial.c:137-141, 167-199 and 212-261 for one [m] in 1..16, on the
    words drawn: freq[m].  [bsize] is a uint; the initial [window] is
    unspecified ([window0]). *)
Definition serial_freq (window0 m : N) (words : list N) : outcome (list N) :=
  match words with
  | [] => Ok (repeat 0 (N.to_nat (2 ^ m)))
  | first :: _ =>
    let bsize := mul32 (N.of_nat (length words)) 32 in
    do (_, _, _, freq) <- iter_o (N.to_nat bsize) (serial_step m (words ++ [first]))
       (0, 0, window0, repeat 0 (N.to_nat (2 ^ m))) ;;
    Ok freq
  end.
