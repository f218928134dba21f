(** Jenkins' one-at-a-time hash of a list of bytes, in arithmetic modulo 2^32,
    from a given starting value. *)
From Coq Require Import NArith List.
Open Scope N_scope.

Definition oaat_byte (h byte : N) : N :=
  let h := (h + byte) mod 2 ^ 32 in
  let h := (1025 * h) mod 2 ^ 32 in
  N.lxor h (h / 2 ^ 6).
Definition oaat_end (h : N) : N :=
  let h := (9 * h) mod 2 ^ 32 in
  let h := N.lxor h (h / 2 ^ 11) in
  (32769 * h) mod 2 ^ 32.
Definition one_at_a_time (start : N) (bytes : list N) : N := oaat_end (fold_left oaat_byte bytes start).
