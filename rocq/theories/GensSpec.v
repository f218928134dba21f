(** Small specifications for the generators. *)
From Verif Require Export GensModel.
Open Scope N_scope.

(** Exclusive or of a list of words. *)
Definition xor_all (l : list N) : N := fold_right N.lxor 0 l.

(** Number of significant bits of a number: the least [b] with [m < 2^b]. *)
Definition is_width (m b : N) : Prop := m < 2 ^ b /\ forall b', m < 2 ^ b' -> b <= b'.

(** What a program does with a generator: seed it, or draw a number. *)
Inductive op := Seed (s : N) | Draw.
Section Run.
Context {S : Type}.
Variable set : S -> N -> outcome S.
Variable get : S -> outcome (N * S).
(** The numbers drawn, and the state at the end. *)
Fixpoint run (ops : list op) (st : S) : outcome (list N * S) :=
  match ops with
  | [] => Ok ([], st)
  | Seed s :: rest => do st <- set st s ;; run rest st
  | Draw :: rest =>
    do (v, st) <- get st ;;
    do (vs, st) <- run rest st ;;
    Ok (v :: vs, st)
  end.
(** The numbers drawn after seeding with [s] at the end of a history. *)
Definition after (history : list op) (s : N) (n : nat) (st : S) : outcome (list N) :=
  do (vs, st) <- run history st ;;
  do (vs, st) <- run (Seed s :: repeat Draw n) st ;;
  Ok vs.
(** Reseeding reproduces the sequence: whatever happened before in two
    (successful) histories, the same seed gives the same numbers. *)
Definition reproducible : Prop := forall st1 st2 h1 h2 s n r1 r2,
  run h1 st1 = Ok r1 -> run h2 st2 = Ok r2 ->
  after h1 s n st1 = after h2 s n st2.
(** All numbers drawn are at most [max]. *)
Definition stays_within (max : N) (st : S) : Prop := forall ops vs st',
  run ops st = Ok (vs, st') -> Forall (fun v => v <= max) vs.
(** No sequence of operations leads outside defined behaviour. *)
Definition never_fails (st : S) : Prop := forall ops, exists r, run ops st = Ok r.
End Run.

(** The little-endian value of eight bytes. *)
Definition le_value (l : list N) : N := fold_right (fun b r => b + 256 * r) 0 l.
