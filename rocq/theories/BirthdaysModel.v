(** Model of diehard_birthdays and dab_birthdays1 (libdieharder/): counting
    repeated spacings.  The two files share the code cited here. *)
From Verif Require Export Tally.
Open Scope N_scope.

(** diehard_birthdays.c:187-200 (dab_birthdays1.c:170-183): the while loop.
    [m] and [mnext] are below the array's length plus one, so they cannot
    wrap.  Result: mnext. *)
Fixpoint same_run (fuel : nat) (iv : list N) (m mnext : Z) : outcome Z :=
  match fuel with
  | O => OutOfFuel
  | S f =>
    do a <- aget iv m ;;
    do b <- aget iv mnext ;;
    if a =? b then same_run f iv m (mnext + 1) else Ok mnext
  end.

(** diehard_birthdays.c:184-205 (dab_birthdays1.c:167-188): the for loop.  The
    count k is raised in the first round of the while loop. *)
Fixpoint repeat_loop (fuel : nat) (iv : list N) (nms m : Z) (k : N) : outcome N :=
  match fuel with
  | O => OutOfFuel
  | S f =>
    if (m <? nms - 1)%Z then
      do mnext <- same_run (S (length iv)) iv m (m + 1) ;;
      let k := if (mnext =? m + 1)%Z then k else k + 1 in
      let m := if (mnext =? m + 1)%Z then m else mnext in
      repeat_loop f iv nms (m + 1) k
    else Ok k
  end.
Definition count_repeats (iv : list N) : outcome N :=
  repeat_loop (S (length iv)) iv (Z.of_nat (length iv)) 0 0.

(** diehard_birthdays.c:167-170 (dab_birthdays1.c:152-155). *)
Fixpoint differences (prev : N) (l : list N) : list N :=
  match l with [] => [] | x :: r => sub32 x prev :: differences x r end.
Definition intervals (l : list N) : list N := match l with [] => [] | x :: r => x :: differences x r end.

Section Run.
(** gsl_sort_uint *)
Variable srt : list N -> list N.
(** The numbers drawn: get_rand_bits (diehard_birthdays.c:138) or gsl_rng_get
    (dab_birthdays1.c:128). *)
Variable g : nat -> N.

Fixpoint draws (n c : nat) : list N := match n with O => [] | S m => g c :: draws m (S c) end.

(** One sample: diehard_birthdays.c:130-205 (dab_birthdays1.c:126-188), with
    nms >= 1. *)
Definition birthdays_sample (nms c : nat) : outcome N :=
  count_repeats (srt (intervals (srt (draws nms c)))).

(** diehard_birthdays.c:121-225 (dab_birthdays1.c:125-208): the histogram js of
    kmax bins. *)
Definition birthdays_step (nms : nat) (s : list N * nat) : outcome (list N * nat) :=
  let '(js, c) := s in
  do k <- birthdays_sample nms c ;;
  do js <- (if k <? N.of_nat (length js) then bump js (Z.of_N k) else Ok js) ;;
  Ok (js, (c + nms)%nat).
Definition birthdays (nms kmax tsamples c : nat) : outcome (list N * nat) :=
  iter_o tsamples (birthdays_step nms) (repeat 0 kmax, c).
End Run.
