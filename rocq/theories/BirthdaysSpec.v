(** What the birthday-spacings tests document. *)
From Coq Require Export Permutation Sorted.
From Verif Require Export Tally.
Open Scope N_scope.

(** What gsl_sort_uint promises. *)
Definition sorts (srt : list N -> list N) : Prop :=
  forall l, Permutation l (srt l) /\ StronglySorted N.le (srt l).

Definition occurrences (v : N) (l : list N) : N := countp (N.eqb v) l.

(** "the number of values that occur more than once in that list" *)
Definition repeated_values (l : list N) : N :=
  countp (fun v => 2 <=? occurrences v l) (nodup N.eq_dec l).

(** The spacings of birthdays given in increasing order, counted from day 0. *)
Fixpoint spacings_from (day : N) (sorted : list N) : list N :=
  match sorted with [] => [] | x :: r => x - day :: spacings_from x r end.

(** What the loop counts instead.  The sorted spacings are a list of groups
    (value, times it occurs); after a group that was counted, the first element
    of the next group is skipped.  [None]: the last group was counted, which
    the loop only leaves by reading past the end of the array. *)
Fixpoint loop_counts (skip : bool) (groups : list (N * nat)) : option N :=
  match groups with
  | [] => Some 0
  | (_, n) :: rest =>
    if (2 <=? (if skip then n - 1 else n))%nat then
      match rest with [] => None | _ => option_map N.succ (loop_counts true rest) end
    else loop_counts false rest
  end.
Definition expand (groups : list (N * nat)) : list N := flat_map (fun p => repeat (fst p) (snd p)) groups.
Definition is_grouping (groups : list (N * nat)) : Prop :=
  StronglySorted N.lt (map fst groups) /\ Forall (fun p => 1 <= snd p)%nat groups.
