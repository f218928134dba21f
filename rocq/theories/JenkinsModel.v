(** Model of libdieharder/rng_jenkins.c: a program that writes hash values. *)
From Verif Require Export Base.
Open Scope N_scope.

(** rng_jenkins.c:30-32; a is a uint32_t, '\0' is 0. *)
Definition jenkins_step (a : N) : N :=
  let a := add32 a 0 in
  let a := add32 a (w32 (N.shiftl a 10)) in
  N.lxor a (N.shiftr a 6).
(** rng_jenkins.c:35-37 *)
Definition jenkins_out (a : N) : N :=
  let b := add32 a (w32 (N.shiftl a 3)) in
  let b := N.lxor b (N.shiftr b 11) in
  add32 b (w32 (N.shiftl b 15)).
(** rng_jenkins.c:27-50: the loop, as far as [room] numbers can be written; the
    numbers and the value returned. *)
Fixpoint jenkins_loop (room : nat) (a : N) : list N * Z :=
  let a := jenkins_step a in
  match room with
  | O => ([], 1%Z)
  | S r => let '(l, rv) := jenkins_loop r a in (jenkins_out a :: l, rv)
  end.
(** rng_jenkins.c:18-53; 0xbb48e941 *)
Definition jenkins_main (room : nat) : list N * Z := jenkins_loop room 3142117697.
