(** Specification of what whole histories of get_rand_bits requests return. *)
From Verif Require Export StreamModel StreamSpec.
Open Scope N_scope.

(** A request for [n] bits after [P] bits have been handed out is refused (the
    program exits) when it is longer than a word, starts inside a word and ends
    further to the right inside a later word. *)
Definition long_reject (P n : N) : bool := (32 <? n) && (0 <? P mod 32) && (P mod 32 <? (P + n) mod 32).
(** Requests the interface allows for: whole-word results, at most 128 bits. *)
Definition good_req (r : N * N) : Prop :=
  fst r mod 4 = 0 /\ fst r <= 24 /\ snd r <= 128 /\ snd r <= fst r * 8.

(** What a history of requests returns: [(rsize, nbits)] each. *)
Fixpoint expected (bit : N -> bool) (P : N) (reqs : list (N * N)) : outcome (list (list N)) :=
  match reqs with
  | [] => Ok []
  | (rsize, n) :: rest =>
    if long_reject P n then Exit 0
    else do vs <- expected bit (P + n) rest ;;
         Ok (flat_map le_bytes (be_words (N.to_nat (rsize / 4)) (lsb_value bit P (N.to_nat n))) :: vs)
  end.

Definition results {A S} (x : outcome (A * S)) : outcome A := do (a, s) <- x ;; Ok a.
